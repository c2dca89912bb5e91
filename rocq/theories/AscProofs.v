(** Lemmas about the ASC reader. *)
From Coq Require Import ZArith Reals Ascii String List Bool Permutation Lia Lra ZifyBool ZifyNat.
From Flocq Require Import Core BinarySingleNaN.
From Verif Require Import Base ListLib StrModel StrSpec StrProofs FsModel FsSpec FsProofs MapModel MapProofs RasterModel FloatModel FloatProofs
  CoordFloatModel TypeModel NumModel NumSpec NumProofs CopyModel AscModel AscSpec.
Import ListNotations.
Open Scope Z_scope.
Open Scope outcome_scope.

Lemma upper_of k K : Forall2 same_letter k K -> GetUpper k = GetUpper K.
Proof. intros H. apply StringMatch_iff in H. unfold StringMatch in H. apply beqb_eq in H. exact H. Qed.

Lemma match_of k K K' : Forall2 same_letter k K -> StringMatch k K' = beqb (GetUpper K) (GetUpper K').
Proof. intros H. unfold StringMatch. rewrite (upper_of _ _ H). reflexivity. Qed.

(** A number is not a header word. *)
Lemma number_head neg ds k w : number_text neg ds k w -> no_space w -> exists c t, w = c :: t /\ (isdigit c = true \/ In c ["+"; "-"; "."]%char).
Proof.
  intros (ws & sg & ip & fp & ft & e & et & Hws & Hsg & Hip & [Hfp Hft] & Het & Hds & Hn & Hk & ->) NS.
  destruct ws as [|c ws].
  2:{ exfalso. inversion Hws; subst. inversion NS as [|? ? A]; subst. apply isspace_iff in H1. congruence. }
  cbn [app]. destruct Hsg as [[-> [->| ->]]|[-> ->]]; cbn [app]; try (eexists _, _; split; [reflexivity|right; cbn; tauto]).
  destruct ip as [|c ip].
  - destruct Hft as [->|[-> ->]]; [|cbn in Hds; congruence]. eexists _, _. split; [reflexivity|]. right; cbn; tauto.
  - eexists _, _. split; [reflexivity|]. left. inversion Hip; subst. now apply isdigit_iff.
Qed.

Lemma number_no_key neg ds k w : number_text neg ds k w -> no_space w -> forall K c t, GetUpper K = c :: t -> 65 <= code c <= 90 -> StringMatch w K = false.
Proof.
  intros N NS K c t E C. destruct (number_head _ _ _ _ N NS) as (a & u & -> & A). unfold StringMatch. rewrite E.
  destruct (beqb (GetUpper (a :: u)) (c :: t)) eqn:B; [|reflexivity]. exfalso. apply beqb_eq in B. cbn [GetUpper map] in B.
  assert (toupper a = c) by congruence. subst c. rewrite toupper_code in C.
  destruct A as [A|A].
  - apply isdigit_code in A. destruct ((97 <=? code a) && (code a <=? 122)) eqn:X; lia.
  - destruct A as [<-|[<-|[<-|[]]]]; vm_compute in C; destruct C; congruence.
Qed.

Lemma word_double w x : number_word w x -> IsDouble f64 strtod w = (x, true).
Proof.
  intros (_ & neg & ds & k & N & D). destruct (IsDouble_number _ _ _ _ N) as (y & E & D2). rewrite E.
  now rewrite (double_of_unique _ _ _ _ D D2).
Qed.

Lemma Split_words l ws : Words l ws -> ~ ends_blank l -> ws <> [] -> SplitString l = ws.
Proof.
  intros W B N. rewrite (SplitString_char l ws W). destruct ws; [congruence|].
  destruct (endsb l) eqn:E; [apply endsb_iff in E; contradiction|reflexivity].
Qed.

Lemma F2_length {A B} (R : A -> B -> Prop) a b : Forall2 R a b -> length a = length b.
Proof. induction 1; cbn; congruence. Qed.

(** ** The checks after the loop *)
Lemma missing_value : is_finite MISSINGFLOAT = true /\ B2R MISSINGFLOAT = (- IZR ((2 ^ 24 - 1) * 2 ^ 104))%R.
Proof.
  unfold MISSINGFLOAT. rewrite is_finite_Bopp, B2R_Bopp.
  pose proof (binary_normalize_correct 53 1024 prec_gt_0_53 prec_lt_53 mode_NE (2 ^ 24 - 1) 104 false) as H.
  cbv zeta in H. unfold F2R in H. cbn [Fnum Fexp] in H.
  assert (E : (IZR (2 ^ 24 - 1) * bpow radix2 104 = IZR ((2 ^ 24 - 1) * 2 ^ 104))%R).
  { rewrite mult_IZR. reflexivity. }
  rewrite E in H. rewrite round_generic in H; [|apply valid_rnd_N|].
  2:{ rewrite <- E. apply generic_format_FLT. exists (Float radix2 (2 ^ 24 - 1) 104); [reflexivity|cbn; lia|cbn; lia]. }
  rewrite Rlt_bool_true in H.
  - destruct H as (H1 & H2 & _). split; [exact H2|]. rewrite H1. reflexivity.
  - rewrite Rabs_pos_eq by (apply IZR_le; vm_compute; discriminate). rewrite <- (IZR_Zpower radix2) by lia. apply IZR_lt. vm_compute. reflexivity.
Qed.

Lemma ordinary_not_missing x : ordinary x -> FloatEqual x MISSINGFLOAT = false.
Proof.
  intros [F B]. destruct missing_value as [MF MV]. apply not_true_is_false. intros E.
  apply (FloatEqual_close x MISSINGFLOAT F MF) in E. rewrite MV in E. pose proof tiny_pos as [_ T1].
  apply Rabs_def2 in E. apply Rabs_le_inv in B. 
  assert (L : (IZR (10 ^ 22) + 1 < IZR ((2 ^ 24 - 1) * 2 ^ 104))%R).
  { rewrite <- plus_IZR. apply IZR_lt. vm_compute. reflexivity. }
  lra.
Qed.

Lemma cell_size_not_negative x : cell_size x -> flt x f64_zero = false.
Proof.
  intros [[F _] B]. unfold flt. rewrite Bltb_correct by (auto; reflexivity). cbn [B2R f64_zero]. apply Rlt_bool_false. exact B.
Qed.

Section Read.
Context {T : Type}.
Variable cast : f64 -> outcome T.

(** What a header entry does. *)
Definition hstep (s : asc T) (f : field) : asc T :=
  match f with
  | FCols z => set_cols s z
  | FRows z => set_rows s z
  | FX c x => set_xll s x (c || a_xc s)
  | FY c x => set_yll s x (c || a_yc s)
  | FCell x => set_cs s x
  | FNoData x => set_nd s x
  end.

Lemma header_line_ok l f s : header_line l f -> asc_line cast (s, true) l = Ok (hstep s f, true).
Proof.
  intros (k & w & rest & W & B & K & E). unfold asc_line. cbn [snd fst negb].
  rewrite (Split_words l _ W B ltac:(discriminate)).
  destruct f as [z|z|[] x|[] x|x|x]; cbn [keyword entry_word hstep] in *;
    rewrite ?(match_of k _ K_NCOLS K), ?(match_of k _ K_NROWS K), ?(match_of k _ K_XLL K), ?(match_of k _ K_XLLCOR K),
      ?(match_of k _ K_YLL K), ?(match_of k _ K_YLLCOR K), ?(match_of k _ K_CELLSIZE K), ?(match_of k _ K_NODATA K);
    match goal with |- context [beqb ?a ?b] => idtac end;
    repeat match goal with |- context [beqb ?a ?b] => let v := eval vm_compute in (beqb a b) in change (beqb a b) with v end;
    cbn [orb int_arg dbl_arg].
  1,2: destruct E as [E R]; rewrite (proj2 (IsInt_char w z) (conj E R)); reflexivity.
  all: rewrite (word_double w x E); reflexivity.
Qed.

Lemma header_lines_ok ls fs : Forall2 header_line ls fs -> forall s, ofold (asc_line cast) ls (s, true) = Ok (fold_left hstep fs s, true).
Proof.
  induction 1 as [|l f ls fs H _ IH]; intros s; [reflexivity|]. cbn [ofold fold_left]. rewrite (header_line_ok l f s H). cbn [obind]. apply IH.
Qed.

(** The final value of each variable, entry by entry. *)
Lemma fold_field {A} (get : asc T -> A) (is : field -> option A) :
  (forall s f, get (hstep s f) = match is f with Some v => v | None => get s end) ->
  forall fs v, (forall f, In f fs -> is f = None \/ is f = Some v) -> forall s, (exists f, In f fs /\ is f = Some v) \/ get s = v ->
  get (fold_left hstep fs s) = v.
Proof.
  intros G. induction fs as [|f fs IH]; intros v U s H; cbn [fold_left].
  - destruct H as [(f & [] & _)|H]; exact H.
  - apply IH; [intros; apply U; now right|]. destruct (U f (or_introl eq_refl)) as [N|S].
    + destruct H as [(g & [<-|I] & E)|H]; [congruence|left; eauto|right; rewrite G, N; exact H].
    + right. rewrite G, S. reflexivity.
Qed.

Lemma six_fields fs cols rows cx x cy y cs nd s : a_xc s = false -> a_yc s = false ->
  Permutation fs [FCols cols; FRows rows; FX cx x; FY cy y; FCell cs; FNoData nd] ->
  fold_left hstep fs s = mkAsc cols rows x y cs nd cx cy (a_vidx s) (a_vals s).
Proof.
  intros X0 Y0 P.
  assert (I : forall f, In f fs <-> In f [FCols cols; FRows rows; FX cx x; FY cy y; FCell cs; FNoData nd]).
  { intros f. split; apply Permutation_in; [exact P|now apply Permutation_sym]. }
  assert (KV : forall fs s, a_vidx (fold_left hstep fs s) = a_vidx s /\ a_vals (fold_left hstep fs s) = a_vals s).
  { clear. induction fs as [|f fs IH]; intros s; [auto|]. cbn [fold_left]. destruct (IH (hstep s f)) as [-> ->]. destruct f; auto. }
  destruct (KV fs s) as [V1 V2].
  assert (A : forall {A} (get : asc T -> A) (is : field -> option A) v,
     (forall s f, get (hstep s f) = match is f with Some v => v | None => get s end) ->
     (forall f, In f [FCols cols; FRows rows; FX cx x; FY cy y; FCell cs; FNoData nd] -> is f = None \/ is f = Some v) ->
     (exists f, In f [FCols cols; FRows rows; FX cx x; FY cy y; FCell cs; FNoData nd] /\ is f = Some v) ->
     get (fold_left hstep fs s) = v).
  { intros A get is v G U E. apply (fold_field get is G).
    - intros f F. apply U, I, F.
    - left. destruct E as (f & F & E). exists f. split; [apply I, F|exact E]. }
  assert (C1 : a_cols (fold_left hstep fs s) = cols).
  { apply (A _ a_cols (fun f => match f with FCols z => Some z | _ => None end)); [intros ? []; reflexivity| |exists (FCols cols); cbn; auto].
    intros f F. cbn in F. intuition subst; auto. }
  assert (C2 : a_rows (fold_left hstep fs s) = rows).
  { apply (A _ a_rows (fun f => match f with FRows z => Some z | _ => None end)); [intros ? []; reflexivity| |exists (FRows rows); cbn; auto].
    intros f F. cbn in F. intuition subst; auto. }
  assert (C3 : a_xll (fold_left hstep fs s) = x).
  { apply (A _ a_xll (fun f => match f with FX _ z => Some z | _ => None end)); [intros ? []; reflexivity| |exists (FX cx x); cbn; auto].
    intros f F. cbn in F. intuition subst; auto. }
  assert (C4 : a_yll (fold_left hstep fs s) = y).
  { apply (A _ a_yll (fun f => match f with FY _ z => Some z | _ => None end)); [intros ? []; reflexivity| |exists (FY cy y); cbn; auto 6].
    intros f F. cbn in F. intuition subst; auto. }
  assert (C5 : a_cs (fold_left hstep fs s) = cs).
  { apply (A _ a_cs (fun f => match f with FCell z => Some z | _ => None end)); [intros ? []; reflexivity| |exists (FCell cs); cbn; auto 7].
    intros f F. cbn in F. intuition subst; auto. }
  assert (C6 : a_nodata (fold_left hstep fs s) = nd).
  { apply (A _ a_nodata (fun f => match f with FNoData z => Some z | _ => None end)); [intros ? []; reflexivity| |exists (FNoData nd); cbn; auto 8].
    intros f F. cbn in F. intuition subst; auto. }
  assert (C7 : a_xc (fold_left hstep fs s) = cx).
  { clear - X0 P. assert (G : forall fs s, a_xc (fold_left hstep fs s) = a_xc s || existsb (fun f => match f with FX c _ => c | _ => false end) fs).
    { clear. induction fs as [|f fs IH]; intros s; cbn [fold_left existsb]; [now rewrite orb_false_r|]. rewrite IH.
      destruct f; cbn [hstep a_xc set_cols set_rows set_xll set_yll set_cs set_nd]; try reflexivity. destruct corner, (a_xc s); reflexivity. }
    rewrite G, X0. cbn [orb]. destruct cx.
    - apply existsb_exists. exists (FX true x). split; [|reflexivity]. apply (Permutation_in _ (Permutation_sym P)). cbn. auto.
    - apply not_true_is_false. intros E. apply existsb_exists in E. destruct E as (f & F & E).
      apply (Permutation_in _ P) in F. cbn in F. intuition subst; discriminate. }
  assert (C8 : a_yc (fold_left hstep fs s) = cy).
  { clear - Y0 P. assert (G : forall fs s, a_yc (fold_left hstep fs s) = a_yc s || existsb (fun f => match f with FY c _ => c | _ => false end) fs).
    { clear. induction fs as [|f fs IH]; intros s; cbn [fold_left existsb]; [now rewrite orb_false_r|]. rewrite IH.
      destruct f; cbn [hstep a_yc set_cols set_rows set_xll set_yll set_cs set_nd]; try reflexivity. destruct corner, (a_yc s); reflexivity. }
    rewrite G, Y0. cbn [orb]. destruct cy.
    - apply existsb_exists. exists (FY true y). split; [|reflexivity]. apply (Permutation_in _ (Permutation_sym P)). cbn. auto 6.
    - apply not_true_is_false. intros E. apply existsb_exists in E. destruct E as (f & F & E).
      apply (Permutation_in _ P) in F. cbn in F. intuition subst; discriminate. }
  destruct (fold_left hstep fs s). cbn in *. congruence.
Qed.

(** ** Data lines *)
Lemma number_line_eq l ws xs s : Words l ws -> ~ ends_blank l -> ws <> [] -> Forall2 number_word ws xs ->
  asc_line cast (s, true) l = data_line cast s ws.
Proof.
  intros W B N F. unfold asc_line. cbn [fst snd negb]. rewrite (Split_words l ws W B N). destruct ws as [|w ws]; [congruence|].
  inversion F as [|? x ? ? (NS & neg & ds & k & NT & _) F2]; subst.
  assert (Q : forall K c t, GetUpper K = c :: t -> 65 <= code c <= 90 -> StringMatch w K = false).
  { intros K c t. apply (number_no_key _ _ _ _ NT NS). }
  assert (Q2 : forall K, hd_error (GetUpper K) <> None -> (forall c, hd_error (GetUpper K) = Some c -> 65 <= code c <= 90) -> StringMatch w K = false).
  { intros K A A2. destruct (GetUpper K) as [|c t] eqn:E; [exfalso; apply A; reflexivity|]. exact (Q K c t E (A2 c eq_refl)). }
  rewrite (Q2 K_NCOLS), (Q2 K_NROWS), (Q2 K_XLL), (Q2 K_XLLCOR), (Q2 K_YLL), (Q2 K_YLLCOR), (Q2 K_CELLSIZE), (Q2 K_NODATA).
  1: reflexivity.
  all: clear; try (vm_compute; discriminate); intros c H; vm_compute in H; injection H as <-; vm_compute; split; discriminate.
Qed.

Lemma number_line_ok l xs s : number_line l xs ->
  exists ws, ws <> [] /\ Forall2 number_word ws xs /\ asc_line cast (s, true) l = data_line cast s ws.
Proof.
  intros (ws & W & B & N & F). exists ws. split; [exact N|]. split; [exact F|]. exact (number_line_eq l ws xs s W B N F).
Qed.

Lemma stop_token ws s : ofold (put_token cast) ws (s, false) = Ok (s, false).
Proof. induction ws; [reflexivity|]. cbn [ofold]. unfold put_token at 1. cbn [snd negb obind]. exact IHws. Qed.

Lemma stop_line ls s : ofold (asc_line cast) ls (s, false) = Ok (s, false).
Proof. induction ls; [reflexivity|]. cbn [ofold]. unfold asc_line at 1. cbn [snd negb obind]. exact IHls. Qed.

Lemma upd_app_mid {A} (a b : list A) x y : upd (a ++ x :: b) (length a) y = a ++ y :: b.
Proof. induction a; cbn; [reflexivity|]. f_equal. exact IHa. Qed.

Lemma imul_ok a b : 0 < a -> 0 < b -> a * b <= INT_MAX -> imul a b = Ok (a * b).
Proof. intros. unfold imul, in_intb. replace ((INT_MIN <=? a * b) && (a * b <=? INT_MAX)) with true; [reflexivity|]. unfold INT_MIN, INT_MAX in *. nia. Qed.

(** The array after [vs] of its [n] cells have been read. *)
Definition filled (n : Z) (v : T) (vs : list T) : list T := vs ++ repeat v (Z.to_nat n - length vs).

Section Body.
Variable s : asc T.
Variable v : T.
Let n := a_rows s * a_cols s.
Hypothesis GR : 0 < a_rows s.
Hypothesis GC : 0 < a_cols s.
Hypothesis GN : n <= INT_MAX.

Definition at_cell (vs : list T) : asc T := set_vals s (Z.of_nat (length vs)) (Some (filled n v vs)).

Lemma put_token_ok w x c vs : number_word w x -> cast x = Ok c -> Z.of_nat (length vs) < n ->
  put_token cast (at_cell vs, true) w = Ok (at_cell (vs ++ [c]), true).
Proof.
  intros W C L. unfold put_token. cbn [fst snd negb]. rewrite (word_double w x W). cbn [negb].
  change (a_rows (at_cell vs)) with (a_rows s). change (a_cols (at_cell vs)) with (a_cols s).
  change (a_vidx (at_cell vs)) with (Z.of_nat (length vs)). change (a_vals (at_cell vs)) with (Some (filled n v vs)). rewrite (imul_ok _ _ GR GC GN). cbn [obind]. fold n.
  replace (Z.of_nat (length vs) =? n) with false by lia. rewrite C. cbn [obind deref].
  assert (FL : length (filled n v vs) = Z.to_nat n).
  { unfold filled. rewrite app_length, repeat_length. lia. }
  rewrite aset_ok by (rewrite FL; lia). cbn [obind]. do 2 f_equal. unfold at_cell, set_vals.
  cbn [a_cols a_rows a_xll a_yll a_cs a_nodata a_xc a_yc]. rewrite app_length. cbn [length]. f_equal; [lia|]. f_equal.
  unfold filled. rewrite app_length. cbn [length].
  replace (Z.to_nat n - length vs)%nat with (S (Z.to_nat n - (length vs + 1)))%nat by lia.
  cbn [repeat]. rewrite Nat2Z.id, upd_app_mid, <- app_assoc. reflexivity.
Qed.

Lemma put_tokens_ok ws xs : Forall2 number_word ws xs -> forall cs, Forall2 (fun x c => cast x = Ok c) xs cs ->
  forall vs, Z.of_nat (length vs + length cs) <= n ->
  ofold (put_token cast) ws (at_cell vs, true) = Ok (at_cell (vs ++ cs), true).
Proof.
  induction 1 as [|w x ws xs W _ IH]; intros cs C vs L; inversion C as [|? c ? cs' C1 C2]; subst; [now rewrite app_nil_r|].
  cbn [ofold]. cbn [length] in L. rewrite (put_token_ok w x c vs W C1 ltac:(lia)). cbn [obind].
  rewrite (IH cs' C2); [|rewrite app_length; cbn; lia]. rewrite <- app_assoc. reflexivity.
Qed.

Lemma put_tokens_over ws xs : Forall2 number_word ws xs -> forall vs cs,
  Z.of_nat (length vs) + Z.of_nat (length xs) > n -> Z.of_nat (length vs + length cs) = n ->
  Forall2 (fun x c => cast x = Ok c) (firstn (length cs) xs) cs ->
  ofold (put_token cast) ws (at_cell vs, true) = Ok (set_vals s n None, false).
Proof.
  induction 1 as [|w x ws xs W F IH]; intros vs cs L E C; [cbn in L; lia|].
  cbn [ofold]. destruct cs as [|c cs].
  - unfold put_token at 1. cbn [fst snd negb]. rewrite (word_double w x W). cbn [negb].
    change (a_rows (at_cell vs)) with (a_rows s). change (a_cols (at_cell vs)) with (a_cols s).
    change (a_vidx (at_cell vs)) with (Z.of_nat (length vs)). rewrite (imul_ok _ _ GR GC GN). cbn [obind]. fold n.
    replace (Z.of_nat (length vs) =? n) with true by (cbn in E; lia). cbn [obind]. rewrite stop_token. do 2 f_equal.
    unfold at_cell, set_vals. cbn. f_equal. cbn in E. lia.
  - cbn [firstn length] in C. inversion C as [|? ? ? ? C1 C2]; subst. rewrite (put_token_ok w x c vs W C1); [|cbn in E; lia]. cbn [obind].
    apply (IH (vs ++ [c]) cs); [rewrite app_length; cbn in *; lia|rewrite app_length; cbn in *; lia|exact C2].
Qed.

Lemma data_line_at vs ws : data_line cast (at_cell vs) ws = ofold (put_token cast) ws (at_cell vs, true).
Proof. reflexivity. Qed.

Lemma lines_ok ls xss : Forall2 number_line ls xss -> forall cs vs, Forall2 (fun x c => cast x = Ok c) (concat xss) cs ->
  Z.of_nat (length vs + length cs) <= n ->
  ofold (asc_line cast) ls (at_cell vs, true) = Ok (at_cell (vs ++ cs), true).
Proof.
  induction 1 as [|l xs ls xss H _ IH]; intros cs vs C L; [cbn in C; inversion C; subst; now rewrite app_nil_r|].
  cbn [concat] in C. apply Forall2_app_inv_l in C. destruct C as (c1 & c2 & C1 & C2 & ->).
  cbn [ofold]. destruct (number_line_ok l xs (at_cell vs) H) as (ws & _ & F & ->). rewrite data_line_at.
  rewrite app_length in L. rewrite (put_tokens_ok ws xs F c1 C1) by lia. cbn [obind].
  rewrite (IH c2 (vs ++ c1) C2) by (rewrite app_length; lia). now rewrite app_assoc.
Qed.

Lemma lines_over ls xss : Forall2 number_line ls xss -> forall cs vs,
  Z.of_nat (length vs) + Z.of_nat (length (concat xss)) > n -> Z.of_nat (length vs + length cs) = n ->
  Forall2 (fun x c => cast x = Ok c) (firstn (length cs) (concat xss)) cs ->
  ofold (asc_line cast) ls (at_cell vs, true) = Ok (set_vals s n None, false).
Proof.
  induction 1 as [|l xs ls xss H _ IH]; intros cs vs L E C; [cbn in L; lia|].
  cbn [concat] in L, C. rewrite app_length in L. cbn [ofold].
  destruct (number_line_ok l xs (at_cell vs) H) as (ws & _ & F & ->). rewrite data_line_at.
  destruct (Nat.lt_ge_cases (length cs) (length xs)) as [Q|Q].
  - rewrite firstn_app in C. replace (length cs - length xs)%nat with 0%nat in C by lia. rewrite firstn_O, app_nil_r in C.
    rewrite (put_tokens_over ws xs F vs cs); [|lia|exact E|exact C]. cbn [obind]. apply stop_line.
  - rewrite firstn_app in C. rewrite firstn_all2 in C by exact Q. apply Forall2_app_inv_l in C. destruct C as (c1 & c2 & C1 & C2 & ->).
    pose proof (F2_length _ _ _ C1) as L1. rewrite app_length in *. 
    rewrite (put_tokens_ok ws xs F c1 C1) by lia. cbn [obind].
    replace (length c1 + length c2 - length xs)%nat with (length c2) in C2 by lia.
    apply (IH c2); [rewrite app_length; lia|rewrite app_length; lia|exact C2].
Qed.
End Body.

(** The first data line also makes the array. *)
Lemma first_line l xs ls s v : a_vals s = None -> a_vidx s = 0 -> 0 < a_rows s -> 0 < a_cols s -> a_rows s * a_cols s <= INT_MAX ->
  cast (a_nodata s) = Ok v -> number_line l xs ->
  ofold (asc_line cast) (l :: ls) (s, true) = ofold (asc_line cast) (l :: ls) (at_cell s v [], true).
Proof.
  intros V0 I0 R C N D (ws & W & B & NN & F). cbn [ofold]. f_equal.
  rewrite !(number_line_eq l ws xs _ W B NN F). unfold data_line. f_equal. unfold init_values. rewrite V0.
  rewrite (imul_ok _ _ R C N). cbn [obind]. replace (a_rows s * a_cols s <=? 0) with false by nia. rewrite D. cbn [obind].
  unfold at_cell, set_vals, filled. cbn [a_vals app length]. rewrite I0, Nat.sub_0_r. unfold init1d.
  replace (a_rows s * a_cols s <=? 0) with false by nia. reflexivity.
Qed.

Lemma finish_ok cols rows x y cs nd cx cy i vals h : grid_size rows cols -> ordinary x -> ordinary y -> cell_size cs ->
  exists h', asc_finish (mkAsc cols rows x y cs nd cx cy i vals) h = Ok (true, h', vals : option (list T)) /\
    header_read h h' cols rows (centre cx cs x) (centre cy cs y) cs nd.
Proof.
  intros (R & C & N) X Y S. unfold asc_finish. cbn [a_cols a_rows a_xll a_yll a_cs a_nodata a_xc a_yc a_vals].
  replace (rows <? 0) with false by lia. replace (cols <? 0) with false by lia.
  rewrite (cell_size_not_negative cs S), (ordinary_not_missing x X), (ordinary_not_missing y Y). cbn [orb].
  rewrite (imul_ok cols rows C R) by lia. cbn [obind]. eexists. split; [reflexivity|].
  unfold header_read, header_shows. rewrite !lookup_UpdateMap.
  repeat match goal with |- context [beqb ?a ?b] => let v := eval vm_compute in (beqb a b) in change (beqb a b) with v end.
  cbv iota. split; [repeat (split; [reflexivity|]); reflexivity|]. split; [reflexivity|]. split; [reflexivity|].
  intros k K. rewrite !lookup_UpdateMap.
  assert (Q : forall a, In a header_keys -> beqb a k = false).
  { intros a A. apply beqb_false. intros ->. contradiction. }
  rewrite !Q; [reflexivity| | | | | | | |]; cbn [header_keys map In]; tauto.
Qed.

(** ** The file *)
Lemma read_lines ls text lines fuel h : text_file ls text -> kept ls lines -> (length ls <= fuel)%nat -> 7 <= Z.of_nat (length lines) ->
  ReadAscFile cast fuel (Some {| content := text; read_error := false |}) h None =
  Some (let* st := ofold (asc_line cast) lines (asc0 None, true) in
        if snd st then asc_finish (fst st) h else Ok (false, h, a_vals (fst st))).
Proof.
  intros (N & F & ->) K L G. destruct (load_loop_ok ls fuel [] N F L) as (out & K2 & E).
  rewrite (kept_det _ _ _ K2 K) in E. unfold ReadAscFile. cbn [LoadPlainTextFile]. rewrite E. cbn [app].
  replace (Z.of_nat (length lines) <? 7) with false by lia. reflexivity.
Qed.

Theorem read_counts ls text hdr body fs xss fuel h cols rows cx x cy y cs nd v :
  text_file ls text -> kept ls (hdr ++ body) -> (length ls <= fuel)%nat ->
  Forall2 header_line hdr fs -> Permutation fs [FCols cols; FRows rows; FX cx x; FY cy y; FCell cs; FNoData nd] ->
  Forall2 number_line body xss -> body <> [] ->
  grid_size rows cols -> ordinary x -> ordinary y -> cell_size cs -> cast nd = Ok v ->
  (forall vs, Forall2 (fun x c => cast x = Ok c) (concat xss) vs -> Z.of_nat (length vs) <= rows * cols ->
     exists h', ReadAscFile cast fuel (Some {| content := text; read_error := false |}) h None =
       Some (Ok (true, h', Some (vs ++ repeat v (Z.to_nat (rows * cols) - length vs)))) /\
       header_read h h' cols rows (centre cx cs x) (centre cy cs y) cs nd) /\
  (forall vs, Forall2 (fun x c => cast x = Ok c) (firstn (length vs) (concat xss)) vs -> Z.of_nat (length vs) = rows * cols ->
     Z.of_nat (length (concat xss)) > rows * cols ->
     ReadAscFile cast fuel (Some {| content := text; read_error := false |}) h None = Some (Ok (false, h, None))).
Proof.
  intros TF K FU HF P BF NB G X Y S D.
  assert (LH : length hdr = 6%nat).
  { rewrite (F2_length _ _ _ HF), (Permutation_length P). reflexivity. }
  rewrite (read_lines ls text _ fuel h TF K FU) by (rewrite app_length, LH; destruct body; [congruence|cbn [length]; lia]).
  rewrite ofold_app, (header_lines_ok hdr fs HF). cbn [obind].
  rewrite (six_fields fs cols rows cx x cy y cs nd (asc0 None) eq_refl eq_refl P). cbn [a_vidx a_vals asc0].
  set (s := mkAsc cols rows x y cs nd cx cy 0 None).
  destruct G as (GR & GC & GN).
  assert (E : ofold (asc_line cast) body (s, true) = ofold (asc_line cast) body (at_cell s v [], true)).
  { destruct BF as [|l xs body xss B1 B2]; [congruence|]. eapply first_line; eauto. }
  rewrite E. split.
  - intros vs C L. rewrite (lines_ok s v GR GC GN body xss BF vs [] C) by exact L. cbn [app obind snd fst].
    unfold at_cell, set_vals, filled. cbn [a_cols a_rows a_xll a_yll a_cs a_nodata a_xc a_yc s].
    destruct (finish_ok cols rows x y cs nd cx cy (Z.of_nat (length vs)) (Some (vs ++ repeat v (Z.to_nat (rows * cols) - length vs))) h (conj GR (conj GC GN)) X Y S) as (h' & F & R).
    exists h'. rewrite F. split; [reflexivity|exact R].
  - intros vs C L O. rewrite (lines_over s v GR GC GN body xss BF vs []); [|cbn [length a_rows a_cols s]; lia|exact L|exact C]. reflexivity.
Qed.
End Read.
