(** Lemmas about ASC files the reader refuses or fails on. *)
From Coq Require Import ZArith Reals Ascii String List Bool Permutation Sorted Lia ZifyBool ZifyNat Lra.
From Flocq Require Import Core BinarySingleNaN.
From Verif Require Import Base ListLib StrModel StrSpec StrProofs FsModel FsSpec FsProofs MapModel MapProofs RasterModel RasterSpec RasterProofs
  FloatModel FloatProofs CoordFloatModel TypeModel NumModel NumSpec NumProofs CopyModel AscModel AscSpec AscProofs AscProofs2 AscProofs3 AscProofs4.
Import ListNotations.
Open Scope Z_scope.
Open Scope outcome_scope.

Lemma skipn_tail {A} n : forall (l : list A) x t, skipn n l = x :: t -> skipn (S n) l = t.
Proof. induction n as [|n IH]; intros l x t H; [cbn in H; subst; reflexivity|]. destruct l as [|a l]; [discriminate|]. exact (IH l x t H). Qed.

(** The words of the header. *)
Definition keys : list bytes := [K_NCOLS; K_NROWS; K_XLL; K_XLLCOR; K_YLL; K_YLLCOR; K_CELLSIZE; K_NODATA].

Section Bad.
Context {T : Type}.
Variable cast : f64 -> outcome T.
Implicit Types (s : asc T).

Lemma fold_vals fs : forall s, a_vidx (fold_left hstep fs s) = a_vidx s /\ a_vals (fold_left hstep fs s) = a_vals s.
Proof. induction fs as [|f fs IH]; intros s; [auto|]. cbn [fold_left]. destruct (IH (hstep s f)) as [-> ->]. destruct f; auto. Qed.

Lemma ofold_UB {A B} (f : A -> B -> outcome A) l a b ls : ofold f l a = Ok b -> forall x, f b x = UB -> ofold f (l ++ x :: ls) a = UB.
Proof. intros H x E. rewrite ofold_app, H. cbn [obind ofold]. now rewrite E. Qed.

(** ** Files that are accepted have a complete header *)
Lemma begins_iff l k t K : SplitString l = k :: t -> K <> [] -> StringMatch k K = true -> begins l K.
Proof.
  intros E N M. destruct (Words_exists (length l) l (le_n _)) as [ws W]. rewrite (SplitString_char l ws W) in E. destruct ws as [|w ws].
  - injection E as <- _. apply StringMatch_iff in M. inversion M. congruence.
  - assert (w = k) by (destruct (endsb l); cbn [app] in E; congruence). subst w. exists k, ws. split; [exact W|apply StringMatch_iff; exact M].
Qed.

(** What data lines leave alone. *)
Definition sizes (s : asc T) := (a_cols s, a_rows s, a_xll s, a_yll s, a_cs s).
Lemma put_sizes ws : forall st st', ofold (put_token cast) ws st = Ok st' -> sizes (fst st') = sizes (fst st).
Proof.
  induction ws as [|w ws IH]; intros st st' E; cbn [ofold] in E; [injection E as <-; reflexivity|].
  destruct (put_token cast st w) as [st1| |] eqn:P; cbn [obind] in E; try discriminate. rewrite (IH _ _ E). clear IH E. unfold put_token in P.
  destruct (negb (snd st)); [injection P as <-; reflexivity|]. destruct (IsDouble f64 strtod w) as [v ok]. destruct (negb ok); [injection P as <-; reflexivity|].
  destruct (imul _ _); cbn [obind] in P; try discriminate. destruct (_ =? _); [injection P as <-; reflexivity|].
  destruct (cast v); cbn [obind] in P; try discriminate. destruct (deref _); cbn [obind] in P; try discriminate. destruct (aset _ _ _); cbn [obind] in P; try discriminate.
  injection P as <-. reflexivity.
Qed.
Lemma data_sizes s ws st : data_line cast s ws = Ok st -> sizes (fst st) = sizes s.
Proof.
  unfold data_line. destruct (init_values cast s) as [s1| |] eqn:I; cbn [obind]; try discriminate. intros E. rewrite (put_sizes _ _ _ E). cbn [fst].
  unfold init_values in I. destruct (a_vals s); [injection I as <-; reflexivity|]. destruct (imul _ _); cbn [obind] in I; try discriminate.
  destruct (_ <=? _); [injection I as <-; reflexivity|]. destruct (cast _); cbn [obind] in I; try discriminate. injection I as <-. reflexivity.
Qed.

Definition seen (ls : list bytes) (K : bytes) : Prop := exists l, In l ls /\ begins l K.
(** Everything known of the sizes comes from a line. *)
Definition accounted (ls : list bytes) (s : asc T) : Prop :=
  (a_cols s = -1 \/ seen ls K_NCOLS) /\ (a_rows s = -1 \/ seen ls K_NROWS) /\
  (a_xll s = MISSINGFLOAT \/ seen ls K_XLL \/ seen ls K_XLLCOR) /\ (a_yll s = MISSINGFLOAT \/ seen ls K_YLL \/ seen ls K_YLLCOR) /\
  (a_cs s = of_int (-1) \/ seen ls K_CELLSIZE).

Lemma accounted_sizes ls s s' : sizes s' = sizes s -> accounted ls s -> accounted ls s'.
Proof. unfold sizes, accounted. intros E. injection E as -> -> -> -> ->. auto. Qed.

Lemma account ls : forall before st st', ofold (asc_line cast) ls st = Ok st' -> accounted before (fst st) -> accounted (before ++ ls) (fst st').
Proof.
  assert (MORE : forall a b K, seen a K -> seen (a ++ b) K) by (intros a b K (l & I & B); exists l; split; [apply in_or_app; left; exact I|exact B]).
  assert (LAST : forall a l K, begins l K -> seen (a ++ [l]) K) by (intros a l K B; exists l; split; [apply in_or_app; right; left; reflexivity|exact B]).
  induction ls as [|l ls IH]; intros before st st' E A; cbn [ofold] in E; [injection E as <-; rewrite app_nil_r; exact A|].
  destruct (asc_line cast st l) as [st1| |] eqn:P; cbn [obind] in E; try discriminate.
  change (before ++ l :: ls) with (before ++ [l] ++ ls). rewrite app_assoc. apply (IH _ _ _ E). clear IH E st'.
  assert (A' : accounted (before ++ [l]) (fst st)).
  { destruct A as ([A1|A1] & [A2|A2] & A3 & A4 & [A5|A5]); (split; [first [left; exact A1|right; exact (MORE _ _ _ A1)]|]);
      (split; [first [left; exact A2|right; exact (MORE _ _ _ A2)]|]);
      (split; [destruct A3 as [A3|[A3|A3]]; [left; exact A3|right; left|right; right]; exact (MORE _ _ _ A3)|]);
      (split; [destruct A4 as [A4|[A4|A4]]; [left; exact A4|right; left|right; right]; exact (MORE _ _ _ A4)|]);
      first [left; exact A5|right; exact (MORE _ _ _ A5)]. }
  pose proof A' as (A1 & A2 & A3 & A4 & A5). clear A.
  unfold asc_line in P. destruct (negb (snd st)); [injection P as <-; exact A'|]. destruct (SplitString l) as [|k t] eqn:SP; [injection P as <-; exact A'|].
  assert (BG : forall K, K <> [] -> StringMatch k K = true -> seen (before ++ [l]) K) by (intros K N M; apply LAST; exact (begins_iff l k t K SP N M)).
  clear MORE LAST.
  repeat match type of P with
  | (if StringMatch k ?K then _ else _) = _ => destruct (StringMatch k K) eqn:?M
  | (if StringMatch k ?K || StringMatch k ?L then _ else _) = _ => destruct (StringMatch k K) eqn:?M; [|destruct (StringMatch k L) eqn:?M]; cbn [orb] in P
  end;
  repeat match goal with M : StringMatch k ?K = true |- _ => apply (BG K ltac:(discriminate)) in M end;
  try (unfold int_arg, dbl_arg in P; destruct t as [|w t]; [injection P as <-; exact A'|];
       match type of P with context [IsInt w] => destruct (IsInt w) as [v ok] | _ => destruct (IsDouble f64 strtod w) as [v ok] end; injection P as <-;
       unfold accounted; cbn [fst set_cols set_rows set_xll set_yll set_cs set_nd a_cols a_rows a_xll a_yll a_cs];
       repeat split; first [assumption|right; assumption|right; left; assumption|right; right; assumption]).
  apply data_sizes in P. exact (accounted_sizes _ _ _ P A').
Qed.

Theorem complete ls text lines fuel h v0 h' v : text_file ls text -> kept ls lines -> (length ls <= fuel)%nat ->
  ReadAscFile cast fuel (Some {| content := text; read_error := false |}) h v0 = Some (Ok (true, h', v)) ->
  7 <= Z.of_nat (length lines) /\ seen lines K_NCOLS /\ seen lines K_NROWS /\ seen lines K_CELLSIZE /\ (seen lines K_XLL \/ seen lines K_XLLCOR) /\ (seen lines K_YLL \/ seen lines K_YLLCOR).
Proof.
  intros (N & FL & ->) K FU E. destruct (load_loop_ok ls fuel [] N FL FU) as (out & K2 & LD). rewrite (kept_det _ _ _ K2 K) in LD.
  unfold ReadAscFile in E. cbn [LoadPlainTextFile] in E. rewrite LD in E. cbn [app] in E.
  destruct (Z.ltb_spec (Z.of_nat (length lines)) 7) as [|L7]; [discriminate|]. split; [exact L7|]. injection E as E. destruct (ofold (asc_line cast) lines (asc0 v0, true)) as [[s b]| |] eqn:F; cbn [obind] in E; try discriminate.
  assert (A0 : accounted [] (asc0 v0)) by (unfold accounted; cbn [asc0 a_cols a_rows a_xll a_yll a_cs]; repeat split; left; reflexivity).
  destruct (account lines [] _ _ F A0) as (A1 & A2 & A3 & A4 & A5). change ([] ++ lines) with lines in *. cbn [fst snd] in *. destruct b; [|discriminate].
  unfold asc_finish in E. destruct ((a_rows s <? 0) || (a_cols s <? 0) || flt (a_cs s) f64_zero || FloatEqual (a_xll s) MISSINGFLOAT || FloatEqual (a_yll s) MISSINGFLOAT) eqn:Q; [discriminate|].
  apply orb_false_elim in Q. destruct Q as [Q Q5]. apply orb_false_elim in Q. destruct Q as [Q Q4]. apply orb_false_elim in Q. destruct Q as [Q Q3]. apply orb_false_elim in Q. destruct Q as [Q1 Q2].
  destruct A1 as [A|A1]; [rewrite A in Q2; discriminate|]. destruct A2 as [A|A2]; [rewrite A in Q1; discriminate|].
  destruct A5 as [A|A5]; [rewrite A in Q3; vm_compute in Q3; discriminate|].
  destruct A3 as [A|A3]; [rewrite A in Q4; vm_compute in Q4; discriminate|]. destruct A4 as [A|A4]; [rewrite A in Q5; vm_compute in Q5; discriminate|]. auto.
Qed.

(** A number before the number of rows. *)
Theorem early_data ls text hdr l rest fs x xs fuel h c v : text_file ls text -> kept ls (hdr ++ l :: rest) -> (length ls <= fuel)%nat ->
  7 <= Z.of_nat (length (hdr ++ l :: rest)) -> Forall2 header_line hdr fs ->
  In (FCols c) fs -> (forall z, In (FCols z) fs -> z = c) -> (forall z, ~ In (FRows z) fs) -> 0 < c <= INT_MAX ->
  number_line l (x :: xs) -> cast x = Ok v ->
  ReadAscFile cast fuel (Some {| content := text; read_error := false |}) h None = Some UB.
Proof.
  intros TF K FU L7 HF IC UC NR C (ws & W & B & N & F) CV. rewrite (read_lines cast ls text _ fuel h TF K FU L7).
  rewrite (ofold_UB _ _ _ _ _ (header_lines_ok cast hdr fs HF (asc0 None))); [reflexivity|].
  rewrite (number_line_eq cast l ws _ _ W B N F). set (s := fold_left hstep fs (asc0 None)).
  assert (E1 : a_cols s = c).
  { apply (fold_field a_cols (fun f => match f with FCols z => Some z | _ => None end)); [intros ? []; reflexivity| |left; eauto].
    intros [] I; auto. right. f_equal. apply UC, I. }
  assert (E2 : a_rows s = -1).
  { apply (fold_field a_rows (fun f => match f with FRows z => Some z | _ => None end)); [intros ? []; reflexivity| |right; reflexivity].
    intros [] I; auto. exfalso. exact (NR _ I). }
  destruct (fold_vals fs (asc0 None)) as [E3 E4]. fold s in E3, E4. cbn [asc0 a_vidx a_vals] in E3, E4.
  assert (IM : imul (a_rows s) (a_cols s) = Ok (- c)).
  { rewrite E1, E2. unfold imul, in_intb, INT_MIN, INT_MAX in *. replace (-1 * c) with (- c) by lia. replace ((-2147483648 <=? - c) && (- c <=? 2147483647)) with true by lia. reflexivity. }
  unfold data_line, init_values. rewrite E4, IM. cbn [obind]. replace (- c <=? 0) with true by lia. cbn [obind].
  destruct ws as [|w ws]; [congruence|]. inversion F as [|? ? ? ? F1 F2]; subst. cbn [ofold]. unfold put_token. cbn [fst snd negb].
  rewrite (word_double w x F1). cbn [negb]. rewrite IM. cbn [obind]. rewrite E3. replace (0 =? - a_cols s) with false by lia.
  rewrite CV. cbn [obind]. rewrite E4. reflexivity.
Qed.

(** One number before the header of a grid of several cells. *)
Theorem first_data ls text l0 hdr l rest fs x0 x xs fuel h cols rows cx xl cy yl cs nd v0 m v :
  text_file ls text -> kept ls (l0 :: hdr ++ l :: rest) -> (length ls <= fuel)%nat ->
  number_line l0 [x0] -> cast MISSINGFLOAT = Ok m -> cast x0 = Ok v0 ->
  Forall2 header_line hdr fs -> Permutation fs [FCols cols; FRows rows; FX cx xl; FY cy yl; FCell cs; FNoData nd] ->
  grid_size rows cols -> 1 < rows * cols -> number_line l (x :: xs) -> cast x = Ok v ->
  ReadAscFile cast fuel (Some {| content := text; read_error := false |}) h None = Some UB.
Proof.
  intros TF K FU (ws0 & W0 & B0 & N0 & F0) CM C0 HF P (GR & GC & GN) G1 (ws & W & B & N & F) CV.
  assert (L6 : length hdr = 6%nat). { rewrite (F2_length _ _ _ HF), (Permutation_length P). reflexivity. }
  rewrite (read_lines cast ls text _ fuel h TF K FU); [|cbn [length]; rewrite app_length; cbn [length]; lia].
  assert (E0 : asc_line cast (asc0 None, true) l0 = Ok (set_vals (asc0 None) 1 (Some [v0]), true)).
  { rewrite (number_line_eq cast l0 ws0 _ _ W0 B0 N0 F0). inversion F0 as [|w ? ws1 ? F1 F2]; subst. inversion F2; subst.
    unfold data_line, init_values, imul, in_intb, INT_MIN, INT_MAX. cbn [asc0 a_vals a_rows a_cols obind a_nodata].
    change (-1 * -1) with 1. cbn [Z.leb Z.compare andb obind]. rewrite CM. cbn [obind ofold]. unfold put_token. cbn [fst snd negb].
    rewrite (word_double w x0 F1). cbn [negb]. unfold imul, in_intb, INT_MIN, INT_MAX. cbn [asc0 set_vals a_vals a_rows a_cols a_vidx].
    change (-1 * -1) with 1. cbn [Z.leb Z.compare andb obind Z.eqb]. rewrite C0. cbn [obind deref init1d]. reflexivity. }
  cbn [ofold]. rewrite E0. cbn [obind].
  rewrite (ofold_UB _ _ _ _ _ (header_lines_ok cast hdr fs HF _)); [reflexivity|].
  rewrite (number_line_eq cast l ws _ _ W B N F).
  rewrite (six_fields cast fs cols rows cx xl cy yl cs nd (set_vals (asc0 None) 1 (Some [v0])) eq_refl eq_refl P).
  cbn [a_vidx a_vals set_vals]. unfold data_line. cbn [init_values a_vals obind].
  destruct ws as [|w ws]; [congruence|]. inversion F as [|? ? ? ? F1 F2]; subst. cbn [ofold]. unfold put_token. cbn [fst snd negb].
  rewrite (word_double w x F1). cbn [negb a_rows a_cols a_vidx a_vals]. rewrite imul_ok by assumption. cbn [obind].
  replace (1 =? rows * cols) with false by lia. rewrite CV. reflexivity.
Qed.

(** An array of the caller that is too small. *)
Theorem reused_array ls text hdr body fs xss fuel h cols rows cx x cy y cs nd old vs :
  text_file ls text -> kept ls (hdr ++ body) -> (length ls <= fuel)%nat ->
  Forall2 header_line hdr fs -> Permutation fs [FCols cols; FRows rows; FX cx x; FY cy y; FCell cs; FNoData nd] ->
  Forall2 number_line body xss -> body <> [] -> grid_size rows cols ->
  Forall2 (fun x c => cast x = Ok c) (concat xss) vs -> Z.of_nat (length vs) <= rows * cols -> (length old < length vs)%nat ->
  ReadAscFile cast fuel (Some {| content := text; read_error := false |}) h (Some old) = Some UB.
Proof.
  intros TF K FU HF P BF NB (GR & GC & GN) CV LE LT.
  assert (L6 : length hdr = 6%nat). { rewrite (F2_length _ _ _ HF), (Permutation_length P). reflexivity. }
  destruct TF as (NE & FN & ->). destruct (load_loop_ok ls fuel [] NE FN FU) as (out & K2 & E).
  rewrite (kept_det _ _ _ K2 K) in E. unfold ReadAscFile. cbn [LoadPlainTextFile]. rewrite E. cbn [app].
  replace (Z.of_nat (length (hdr ++ body)) <? 7) with false by (rewrite app_length; destruct body; [congruence|cbn [length]; lia]).
  f_equal. rewrite ofold_app, (header_lines_ok cast hdr fs HF). cbn [obind].
  rewrite (six_fields cast fs cols rows cx x cy y cs nd (asc0 (Some old)) eq_refl eq_refl P). cbn [a_vidx a_vals asc0].
  set (s := mkAsc cols rows x y cs nd cx cy 0 (Some old)).
  set (at_ := fun (cells : list T) => set_vals s (Z.of_nat (length cells)) (Some (cells ++ skipn (length cells) old))).
  change s with (at_ []).
  assert (TOK : forall w xv c cells, number_word w xv -> cast xv = Ok c -> Z.of_nat (length cells) < rows * cols ->
     put_token cast (at_ cells, true) w = if (length cells <? length old)%nat then Ok (at_ (cells ++ [c]), true) else UB).
  { intros w xv c cells WD CC LC. unfold put_token. cbn [fst snd negb]. rewrite (word_double w xv WD). cbn [negb].
    change (a_rows (at_ cells)) with rows. change (a_cols (at_ cells)) with cols.
    change (a_vidx (at_ cells)) with (Z.of_nat (length cells)). change (a_vals (at_ cells)) with (Some (cells ++ skipn (length cells) old)).
    rewrite imul_ok by assumption. cbn [obind]. replace (Z.of_nat (length cells) =? rows * cols) with false by lia. rewrite CC. cbn [obind deref].
    destruct (Nat.ltb_spec (length cells) (length old)) as [Q|Q].
    - destruct (skipn (length cells) old) as [|o1 t] eqn:SK.
      { apply (f_equal (@length T)) in SK. rewrite skipn_length in SK. cbn in SK. lia. }
      assert (ST : skipn (length (cells ++ [c])) old = t).
      { rewrite app_length. cbn [length]. rewrite Nat.add_1_r. exact (skipn_tail _ _ _ _ SK). }
      rewrite aset_ok by (rewrite app_length; cbn [length]; lia). cbn [obind]. do 2 f_equal. unfold at_, set_vals. cbn. rewrite ST, app_length. cbn [length].
      f_equal; [lia|]. f_equal. rewrite Nat2Z.id, upd_app_mid, <- app_assoc. reflexivity.
    - rewrite (skipn_all2 old) by exact Q. rewrite app_nil_r. unfold aset.
      rewrite Nat2Z.id, Nat.ltb_irrefl. destruct (Z.of_nat (length cells) <? 0); reflexivity. }
  assert (TOKS : forall ws xs, Forall2 number_word ws xs -> forall c2 cells, Forall2 (fun x c => cast x = Ok c) xs c2 -> Z.of_nat (length cells + length c2) <= rows * cols ->
     (length cells <= length old)%nat ->
     ofold (put_token cast) ws (at_ cells, true) = if (length cells + length c2 <=? length old)%nat then Ok (at_ (cells ++ c2), true) else UB).
  { induction 1 as [|w xv ws xs WD _ IH]; intros c2 cells C LC LO; inversion C as [|? c ? cs' C1 C2]; subst.
    - cbn [length ofold]. rewrite Nat.add_0_r, app_nil_r. destruct (Nat.leb_spec (length cells) (length old)); [reflexivity|lia].
    - cbn [ofold]. cbn [length] in LC |- *. rewrite (TOK w xv c cells WD C1) by lia. destruct (Nat.ltb_spec (length cells) (length old)) as [Q|Q].
      + cbn [obind]. rewrite (IH cs' (cells ++ [c]) C2); [|rewrite app_length; cbn; lia|rewrite app_length; cbn; lia].
        rewrite app_length. cbn [length]. rewrite <- app_assoc. cbn [app]. replace (length cells + 1 + length cs')%nat with (length cells + S (length cs'))%nat by lia. reflexivity.
      + cbn [obind]. destruct (Nat.leb_spec (length cells + S (length cs')) (length old)); [lia|reflexivity]. }
  assert (LN : forall ls' xss', Forall2 number_line ls' xss' -> forall c2 cells, Forall2 (fun x c => cast x = Ok c) (concat xss') c2 ->
     Z.of_nat (length cells + length c2) <= rows * cols -> (length cells <= length old)%nat -> (length old < length cells + length c2)%nat ->
     ofold (asc_line cast) ls' (at_ cells, true) = UB).
  { induction 1 as [|l xs ls' xss' H _ IH]; intros c2 cells C LC LO LL; [cbn in C; inversion C; subst; cbn in LL; lia|].
    cbn [concat] in C. apply Forall2_app_inv_l in C. destruct C as (c1 & c3 & C1 & C3 & ->). rewrite app_length in *.
    cbn [ofold]. destruct (number_line_ok cast l xs (at_ cells) H) as (ws & _ & F & ->). unfold data_line. cbn [init_values at_ set_vals a_vals obind].
    change (set_vals s (Z.of_nat (length cells)) (Some (cells ++ skipn (length cells) old))) with (at_ cells).
    rewrite (TOKS ws xs F c1 cells C1) by lia. destruct (Nat.leb_spec (length cells + length c1) (length old)) as [Q|Q]; [|reflexivity].
    cbn [obind]. apply (IH c3); [exact C3|rewrite app_length; lia|rewrite app_length; lia|rewrite app_length; lia]. }
  rewrite (LN body xss BF vs [] CV) by (cbn [length]; lia). reflexivity.
Qed.

(** A NoData value that does not fit the cell type. *)
Theorem nodata_UB ls text hdr l rest fs xs fuel h cols rows cx x cy y cs nd :
  text_file ls text -> kept ls (hdr ++ l :: rest) -> (length ls <= fuel)%nat ->
  Forall2 header_line hdr fs -> Permutation fs [FCols cols; FRows rows; FX cx x; FY cy y; FCell cs; FNoData nd] ->
  number_line l xs -> grid_size rows cols -> cast nd = UB ->
  ReadAscFile cast fuel (Some {| content := text; read_error := false |}) h None = Some UB.
Proof.
  intros TF K FU HF P (ws & W & B & N & F) (GR & GC & GN) D.
  assert (L6 : length hdr = 6%nat). { rewrite (F2_length _ _ _ HF), (Permutation_length P). reflexivity. }
  rewrite (read_lines cast ls text _ fuel h TF K FU); [|rewrite app_length; cbn [length]; lia].
  rewrite (ofold_UB _ _ _ _ _ (header_lines_ok cast hdr fs HF (asc0 None))); [reflexivity|].
  rewrite (number_line_eq cast l ws _ _ W B N F). rewrite (six_fields cast fs cols rows cx x cy y cs nd (asc0 None) eq_refl eq_refl P).
  unfold data_line, init_values. cbn [a_vals a_vidx a_rows a_cols a_nodata asc0]. rewrite imul_ok by assumption. cbn [obind].
  replace (rows * cols <=? 0) with false by nia. rewrite D. reflexivity.
Qed.

(** A word that is no number. *)
Theorem bad_word ls text hdr body l rest ws xs w more fs xss fuel h cols rows cx x cy y cs nd v vs :
  text_file ls text -> kept ls (hdr ++ body ++ l :: rest) -> (length ls <= fuel)%nat ->
  Forall2 header_line hdr fs -> Permutation fs [FCols cols; FRows rows; FX cx x; FY cy y; FCell cs; FNoData nd] ->
  Forall2 number_line body xss -> Words l (ws ++ w :: more) -> ~ ends_blank l -> Forall2 number_word ws xs ->
  snd (IsDouble f64 strtod w) = false -> (ws = [] -> forall K, In K keys -> StringMatch w K = false) ->
  grid_size rows cols -> cast nd = Ok v ->
  Forall2 (fun x c => cast x = Ok c) (concat xss ++ xs) vs -> Z.of_nat (length vs) <= rows * cols ->
  ReadAscFile cast fuel (Some {| content := text; read_error := false |}) h None = Some (Ok (false, h, None)).
Proof.
  intros TF K FU HF P BF W B F NW FIRST (GR & GC & GN) D CV LE.
  assert (L6 : length hdr = 6%nat). { rewrite (F2_length _ _ _ HF), (Permutation_length P). reflexivity. }
  rewrite (read_lines cast ls text _ fuel h TF K FU); [|rewrite !app_length; cbn [length]; lia].
  rewrite ofold_app, (header_lines_ok cast hdr fs HF). cbn [obind].
  rewrite (six_fields cast fs cols rows cx x cy y cs nd (asc0 None) eq_refl eq_refl P). cbn [a_vidx a_vals asc0].
  set (s := mkAsc cols rows x y cs nd cx cy 0 None) in *.
  apply Forall2_app_inv_l in CV. destruct CV as (c1 & c2 & C1 & C2 & ->). rewrite app_length in LE.
  assert (DL : forall st, asc_line cast (st, true) l = data_line cast st (ws ++ w :: more)).
  { intros st. destruct ws as [|w0 ws0].
    { unfold asc_line. cbn [fst snd negb app] in *. rewrite (Split_words l _ W B ltac:(discriminate)).
      rewrite !(FIRST eq_refl) by (cbn; tauto). reflexivity. }
    clear FIRST. unfold asc_line. cbn [fst snd negb]. rewrite (Split_words l _ W B ltac:(discriminate)). cbn [app].
    inversion F as [|? x0 ? xs0 F1 F2]; subst.
    destruct F1 as (NS & neg & ds & k & NT & _).
    assert (Q2 : forall K, hd_error (GetUpper K) <> None -> (forall c, hd_error (GetUpper K) = Some c -> 65 <= code c <= 90) -> StringMatch w0 K = false).
    { intros K0 A A2. destruct (GetUpper K0) as [|c t] eqn:E; [exfalso; apply A; reflexivity|]. exact (number_no_key _ _ _ _ NT NS K0 c t E (A2 c eq_refl)). }
    rewrite (Q2 K_NCOLS), (Q2 K_NROWS), (Q2 K_XLL), (Q2 K_XLLCOR), (Q2 K_YLL), (Q2 K_YLLCOR), (Q2 K_CELLSIZE), (Q2 K_NODATA).
    1: reflexivity.
    all: clear; try (vm_compute; discriminate); intros c H; vm_compute in H; injection H as <-; vm_compute; split; discriminate. }
  assert (INIT : forall ws', data_line cast s ws' = data_line cast (at_cell s v []) ws').
  { intros ws'. unfold data_line. f_equal. unfold init_values. change (a_vals s) with (@None (list T)). change (a_rows s) with rows. change (a_cols s) with cols.
    rewrite imul_ok by assumption. cbn [obind]. replace (rows * cols <=? 0) with false by nia. change (a_nodata s) with nd. rewrite D. cbn [obind].
    unfold at_cell, set_vals, filled. cbn [a_vals app length a_rows a_cols s]. rewrite Nat.sub_0_r. unfold init1d. replace (rows * cols <=? 0) with false by nia. reflexivity. }
  assert (E : ofold (asc_line cast) (body ++ l :: rest) (s, true) = ofold (asc_line cast) (body ++ l :: rest) (at_cell s v [], true)).
  { destruct BF as [|l0 xs0 body xss B1 B2].
    - cbn [app ofold]. f_equal. rewrite !DL. apply INIT.
    - cbn [app]. eapply first_line; eauto. }
  rewrite E, ofold_app. rewrite (lines_ok cast s v GR GC GN body xss BF c1 [] C1) by (cbn; lia). cbn [obind app ofold].
  rewrite DL, data_line_at, ofold_app. rewrite (put_tokens_ok cast s v GR GC GN ws xs F c2 C2) by (cbn; lia). cbn [obind ofold].
  unfold put_token at 1. cbn [fst snd negb]. destruct (IsDouble f64 strtod w) as [d ok]. cbn [snd] in NW. subst ok. cbn [negb obind].
  rewrite stop_token. cbn [obind]. rewrite stop_line. reflexivity.
Qed.
End Bad.

Lemma spoiled_bad w : spoiled w -> snd (IsDouble f64 strtod w) = false /\ forall K, In K keys -> StringMatch w K = false.
Proof.
  intros (NS & neg & ds & k & s & c & r & N & C & ->). split; [apply (IsDouble_junk neg ds k s c r N C)|]. intros K I.
  apply Forall_app in NS. destruct NS as [NS _]. destruct (number_head neg ds k s N NS) as (a & u & -> & A). unfold StringMatch.
  assert (H : exists c0 t, GetUpper K = c0 :: t /\ 65 <= code c0 <= 90).
  { cbn [keys In] in I. repeat (destruct I as [<-|I]; [eexists _, _; split; [vm_compute; reflexivity|vm_compute; split; discriminate]|]). destruct I. }
  destruct H as (c0 & t & -> & H). destruct (beqb (GetUpper ((a :: u) ++ c :: r)) (c0 :: t)) eqn:B; [|reflexivity]. exfalso. apply beqb_eq in B. cbn [GetUpper map app] in B.
  assert (E : toupper a = c0) by congruence. subst c0. rewrite toupper_code in H. destruct A as [A|A].
  - apply isdigit_code in A. destruct ((97 <=? code a) && (code a <=? 122)) eqn:X; lia.
  - destruct A as [<-|[<-|[<-|[]]]]; vm_compute in H; destruct H; congruence.
Qed.

(** ** The lines of a written grid *)
Lemma grid_file cols rows x y cs nd cell k text : 0 < cols -> finite4 x y cs nd ->
  (forall i j, 0 <= i < rows -> 0 <= j < cols -> plain (cell i j) /\ not_comment [cell i j]) ->
  text = lines_text (header_words cols rows x y cs nd) ++ grid_text cell rows cols ++ repeat "010"%char k ->
  exists ls, text_file ls text /\ (length ls <= S (length text))%nat /\
    kept ls (map (join " ") (header_words cols rows x y cs nd) ++ map (fun i => join " " (row_words cell cols i)) (zseq rows)).
Proof.
  intros GC (F1 & F2 & F3 & F4) CE ->.
  set (hw := header_words cols rows x y cs nd) in *. set (rw := map (row_words cell cols) (zseq rows)).
  set (L := map (fun ws => join " " ws ++ []) hw ++ map (fun ws => join " " ws ++ sp) rw ++ repeat [] k).
  assert (TX : lines_text hw ++ grid_text cell rows cols ++ repeat "010"%char k = join "010" (L ++ [[]])).
  { rewrite join_lines. unfold L. rewrite !flat_map_app, repeat_lines, <- lines_text_lines. f_equal. f_equal.
    unfold rw. apply grid_text_lines, GC. }
  assert (PR : Forall (fun ws => ws <> [] /\ Forall plain ws /\ not_comment ws) rw).
  { apply Forall_forall. intros ws I. apply in_map_iff in I. destruct I as (i & <- & I). apply zseq_In in I. unfold row_words.
    pose proof (zseq_nonempty cols GC) as ZN. split; [intros E; apply map_eq_nil in E; contradiction|]. split.
    - apply Forall_forall. intros u U. apply in_map_iff in U. destruct U as (j & <- & J). apply zseq_In in J. apply CE; assumption.
    - destruct (zseq cols) as [|j l] eqn:E; [congruence|]. assert (J : 0 <= j < cols) by (apply zseq_In; rewrite E; now left).
      cbn [map not_comment]. destruct (CE i j I J) as [_ Q]. exact Q. }
  assert (PH : Forall (fun ws => ws <> [] /\ Forall plain ws /\ not_comment ws) hw) by now apply header_words_plain.
  exists (L ++ [[]]). rewrite TX. split; [|split].
  - split; [destruct L; discriminate|]. split; [|reflexivity]. apply Forall_app. split; [|constructor; [easy|constructor]].
    unfold L. apply Forall_app. split; [|apply Forall_app; split].
    + apply Forall_forall. intros l I. apply in_map_iff in I. destruct I as (ws & <- & I). rewrite Forall_forall in PH. apply join_no_newline; [apply PH, I|auto].
    + apply Forall_forall. intros l I. apply in_map_iff in I. destruct I as (ws & <- & I). rewrite Forall_forall in PR. apply join_no_newline; [apply PR, I|auto].
    + apply Forall_forall. intros l I. apply repeat_spec in I. subst. easy.
  - rewrite join_lines. pose proof (flat_map_length_ge "010" L). rewrite app_length. cbn [length]. lia.
  - replace (map (fun i => join " " (row_words cell cols i)) (zseq rows)) with (map (join " ") rw) by (unfold rw; apply map_map).
    unfold L. rewrite <- !app_assoc. apply kept_words; [auto|exact PH|]. rewrite <- (app_nil_r (map (join " ") rw)) at 1.
    apply kept_words; [auto|exact PR|]. change [[]] with (repeat (@nil ascii) 1). rewrite <- repeat_app. apply kept_empty.
Qed.

(** ** 8-bit cells *)
Lemma digit_show v : 48 <= v <= 57 -> exists x, number_word (show_uint8 v) x /\ cast_uint8 x = Ok (v - 48).
Proof.
  intros H. assert (E : show_uint8 v = itoa (v - 48)).
  { assert (C : v = 48 \/ v = 49 \/ v = 50 \/ v = 51 \/ v = 52 \/ v = 53 \/ v = 54 \/ v = 55 \/ v = 56 \/ v = 57) by lia.
    repeat (destruct C as [->|C]; [vm_compute; reflexivity|]). subst. vm_compute. reflexivity. }
  rewrite E. exists (of_int (v - 48)). split.
  - split; [apply itoa_no_space|]. exists (v - 48 <? 0), (dec (Z.abs (v - 48))), 0. split; [apply itoa_number|].
    destruct (IsDouble_number _ _ _ _ (itoa_number (v - 48))) as (x & Q & D). rewrite IsDouble_itoa in Q by lia. injection Q as <-. exact D.
  - destruct (of_int_exact (v - 48) ltac:(lia)) as [F V]. apply cast_int_exact; auto. lia.
Qed.

Lemma letter_show v : 65 <= v <= 90 -> plain (show_uint8 v) /\ not_comment [show_uint8 v] /\ snd (IsDouble f64 strtod (show_uint8 v)) = false /\
  forall K, In K keys -> StringMatch (show_uint8 v) K = false.
Proof.
  intros H. assert (G : forall n, (n < 26)%nat -> let w := show_uint8 (65 + Z.of_nat n) in
    (match w with [c] => negb (isspace c) && negb (Ascii.eqb c "#") | _ => false end && negb (snd (IsDouble f64 strtod w)) && negb (existsb (StringMatch w) keys)) = true).
  { intros n N. do 26 (destruct n as [|n]; [vm_compute; reflexivity|]). lia. }
  specialize (G (Z.to_nat (v - 65)) ltac:(lia)). cbv zeta in G. replace (65 + Z.of_nat (Z.to_nat (v - 65))) with v in G by lia.
  apply andb_prop in G. destruct G as [G G3]. apply andb_prop in G. destruct G as [G1 G2]. apply negb_true_iff in G2, G3.
  unfold show_uint8 in *. apply andb_prop in G1. destruct G1 as [S C]. apply negb_true_iff in S, C.
  split; [split; [discriminate|constructor; [exact S|constructor]]|]. split; [cbn [not_comment]; intros Q; rewrite Q in C; discriminate|]. split; [exact G2|].
  intros K I. destruct (StringMatch _ K) eqn:Q; [|reflexivity]. exfalso. rewrite (proj2 (existsb_exists _ keys)) in G3; [discriminate|eauto].
Qed.

Lemma byte_nodata (nd nd' : f64) : is_finite nd = true -> (0 <= B2R nd <= 255)%R -> reread nd nd' -> exists w, cast_uint8 nd' = Ok w.
Proof.
  intros F [B1 B2] R.
  assert (S6 : six_digits (IZR 255) = IZR 255) by (apply six_digits_fix; apply small_six; lia).
  assert (SD : to_double (IZR 255) = IZR 255) by (apply to_double_int; lia).
  assert (K : (0 <= to_double (six_digits (B2R nd)) <= 255)%R).
  { split.
    - rewrite <- to_double_0. apply to_double_le. rewrite <- six_digits_0. apply six_digits_le, B1.
    - rewrite <- SD. apply to_double_le. rewrite <- S6. apply six_digits_le, B2. }
  destruct R as [(F' & E & _)|(_ & C)].
  - destruct (cast_between 0 255 nd' F') as (z & Z & _); [|exists z; exact Z]. rewrite E. exact K.
  - exfalso. revert C. apply Rlt_not_le. apply Rle_lt_trans with (IZR 255); [apply Rabs_le; lra|]. rewrite <- (IZR_Zpower radix2) by lia. apply IZR_lt. vm_compute. reflexivity.
Qed.

Theorem byte_digits h0 cols rows x y cs nd vals h fuel text :
  header_shows h0 cols rows x y cs nd -> grid_size rows cols -> Z.of_nat (length vals) = rows * cols ->
  ordinary x -> ordinary y -> cell_size cs -> is_finite nd = true -> (0 <= B2R nd <= 255)%R ->
  Forall (fun v => 48 <= v <= 57) vals ->
  WriteSingleAsc show_uint8 true true h0 (Some vals) = Ok (Some text) -> (length text < fuel)%nat ->
  exists h', ReadAscFile cast_uint8 fuel (Some {| content := text; read_error := false |}) h None = Some (Ok (true, h', Some (map (fun v => v - 48) vals))).
Proof.
  intros HS G L OX OY OC FN BN FR W FU. destruct (write_single show_uint8 h0 cols rows x y cs nd vals HS G L) as (v & IV & EV & EW).
  rewrite EW in W. injection W as W. rewrite Forall_forall in FR.
  destruct (read_grid cast_uint8 cols rows x y cs nd (fun i j => show_uint8 (v i j)) (fun i j => fst (strtod (show_uint8 (v i j)))) (fun i j => v i j - 48) 1 fuel h text) as
    (h' & x' & y' & cs' & nd' & A1 & A2 & A3 & A4 & R & H); auto.
  { intros i j I J. destruct (digit_show (v i j) (FR _ (IV i j I J))) as (q & Q & C).
    assert (E : fst (strtod (show_uint8 (v i j))) = q).
    { pose proof Q as (_ & neg & ds & k & N & D). destruct (strtod_correct _ _ _ _ N) as [D' _]. exact (double_of_unique _ _ _ _ D' D). }
    rewrite E. auto. }
  { intros nd' R. exact (byte_nodata nd nd' FN BN R). }
  exists h'. rewrite R. do 5 f_equal. rewrite EV. rewrite !flat_map_concat_map, concat_map, map_map. f_equal. apply map_ext. intros i. rewrite map_map. reflexivity.
Qed.

Theorem byte_letters h0 cols rows x y cs nd vals h fuel text :
  header_shows h0 cols rows x y cs nd -> grid_size rows cols -> Z.of_nat (length vals) = rows * cols ->
  ordinary x -> ordinary y -> cell_size cs -> is_finite nd = true -> (0 <= B2R nd <= 255)%R ->
  Forall (fun v => 65 <= v <= 90) vals ->
  WriteSingleAsc show_uint8 true true h0 (Some vals) = Ok (Some text) -> (length text < fuel)%nat ->
  ReadAscFile cast_uint8 fuel (Some {| content := text; read_error := false |}) h None = Some (Ok (false, h, None)).
Proof.
  intros HS G L OX OY OC FN BN FR W FU. destruct (write_single show_uint8 h0 cols rows x y cs nd vals HS G L) as (v & IV & EV & EW).
  rewrite EW in W. injection W as W. rewrite Forall_forall in FR.
  assert (F4 : finite4 x y cs nd). { repeat split; auto; [apply OX|apply OY|apply OC]. }
  assert (GI : in_int cols /\ in_int rows). { destruct G as (? & ? & ?). unfold in_int, INT_MIN, INT_MAX in *. nia. }
  destruct F4 as (FX & FY & FC & _).
  destruct (header_lines_written cols rows x y cs nd (proj1 GI) (proj2 GI) FX FY FC FN) as (x' & y' & cs' & nd' & R1 & R2 & R3 & R4 & HL).
  pose proof G as (GR & GC & GN).
  destruct (grid_file cols rows x y cs nd (fun i j => show_uint8 (v i j)) 1 text GC) as (ls & TF & LL & K); [repeat split; auto| |auto|].
  { intros i j I J. destruct (letter_show (v i j) (FR _ (IV i j I J))) as (A & B & _). auto. }
  destruct (byte_nodata nd nd' FN BN R4) as (w & CW).
  replace rows with ((rows - 1) + 1) in K at 1 by lia. 
  assert (ZR : zseq rows = 0 :: map (fun k => 1 + k) (zseq (rows - 1))). { replace rows with (1 + (rows - 1)) at 1 by lia. rewrite zseq_app by lia. reflexivity. }
  assert (ZC : zseq cols = 0 :: map (fun k => 1 + k) (zseq (cols - 1))). { replace cols with (1 + (cols - 1)) at 1 by lia. rewrite zseq_app by lia. reflexivity. }
  replace (rows - 1 + 1) with rows in K by lia. rewrite ZR in K. cbn [map] in K.
  destruct (letter_show (v 0 0) (FR _ (IV 0 0 ltac:(lia) ltac:(lia)))) as (A & B & C & D).
  assert (PL : Forall plain (row_words (fun i j => show_uint8 (v i j)) cols 0)).
  { apply Forall_forall. intros u U. apply in_map_iff in U. destruct U as (j & <- & J). apply zseq_In in J. apply letter_show, FR, IV; lia. }
  eapply (bad_word cast_uint8 ls text _ [] _ _ [] [] (show_uint8 (v 0 0)) (map (fun j => show_uint8 (v 0 j)) (map (fun k => 1 + k) (zseq (cols - 1)))) _ [] fuel h cols rows false x' false y' cs' nd' w []);
    [exact TF|exact K|lia|exact HL|apply Permutation_refl|constructor| | |constructor|exact C|auto|exact G|exact CW|constructor|cbn; nia].
  - cbn [app]. assert (RW : row_words (fun i j => show_uint8 (v i j)) cols 0 = show_uint8 (v 0 0) :: map (fun j => show_uint8 (v 0 j)) (map (fun k => 1 + k) (zseq (cols - 1)))).
    { unfold row_words. rewrite ZC. reflexivity. }
    rewrite <- RW. apply join_Words, PL.
  - apply join_no_blank; [|exact PL]. unfold row_words. rewrite ZC. discriminate.
Qed.

(** Fewer than seven lines. *)
Theorem short_file {T} (cast : f64 -> outcome T) ls text lines fuel h values : text_file ls text -> kept ls lines -> (length ls <= fuel)%nat -> (length lines < 7)%nat ->
  ReadAscFile cast fuel (Some {| content := text; read_error := false |}) h values = Some (Ok (false, h, values)).
Proof.
  intros (N & F & ->) K L G. destruct (load_loop_ok ls fuel [] N F L) as (out & K2 & E).
  rewrite (kept_det _ _ _ K2 K) in E. unfold ReadAscFile. cbn [LoadPlainTextFile]. rewrite E. cbn [app].
  replace (Z.of_nat (length lines) <? 7) with true by lia. reflexivity.
Qed.
