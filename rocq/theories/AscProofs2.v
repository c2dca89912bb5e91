(** Lemmas about ASC files written and read again. *)
From Coq Require Import ZArith Reals Ascii String List Bool Permutation Lia Lra ZifyBool ZifyNat.
From Flocq Require Import Core BinarySingleNaN.
From Verif Require Import Base ListLib StrModel StrSpec StrProofs FsModel FsSpec FsProofs MapModel MapProofs RasterModel FloatModel FloatProofs
  CoordFloatModel TypeModel NumModel NumSpec NumProofs CopyModel AscModel AscSpec AscProofs.
Import ListNotations.
Open Scope Z_scope.
Open Scope outcome_scope.

(** ** Lines made of words *)
Definition plain (w : bytes) : Prop := w <> [] /\ no_space w.
Definition sp : bytes := [" "%char].

Lemma join_cons d w ws : ws <> [] -> join d (w :: ws) = w ++ d :: join d ws.
Proof. destruct ws; [congruence|reflexivity]. Qed.

Lemma plain_last w : plain w -> exists u c, w = u ++ [c] /\ isspace c = false.
Proof.
  intros [N S]. destruct (exists_last N) as (u & c & E). exists u, c. split; [exact E|].
  subst w. apply Forall_app in S. destruct S as [_ S]. inversion S; auto.
Qed.

Lemma join_last ws : ws <> [] -> Forall plain ws -> exists u c, join " " ws = u ++ [c] /\ isspace c = false.
Proof.
  induction ws as [|w ws IH]; intros N F; [congruence|]. inversion F as [|? ? P F']; subst. destruct ws as [|w2 ws].
  - cbn [join]. now apply plain_last.
  - rewrite join_cons by discriminate. destruct (IH ltac:(discriminate) F') as (u & c & E & S). rewrite E.
    exists (w ++ " "%char :: u), c. split; [|exact S]. rewrite <- app_assoc. reflexivity.
Qed.

Lemma join_first ws : ws <> [] -> Forall plain ws -> exists c u w, join " " ws = c :: u /\ isspace c = false /\ hd_error ws = Some (c :: w).
Proof.
  intros N F. destruct ws as [|w ws]; [congruence|]. inversion F as [|? ? [P S] F']; subst. destruct w as [|c w]; [congruence|].
  inversion S; subst. destruct ws; [exists c, w, w; auto|]. rewrite join_cons by discriminate. cbn [app]. exists c, (w ++ " "%char :: join " " (b :: ws)), w. auto.
Qed.

Lemma join_Words ws : Forall plain ws -> Words (join " " ws) ws.
Proof.
  induction 1 as [|w ws [N S] F IH]; [apply Words_nil; constructor|]. destruct ws as [|w2 ws].
  - cbn [join]. rewrite <- (app_nil_r w) at 1. change (w ++ []) with ([] ++ w ++ []). apply Words_cons; [constructor|exact N|exact S|left; reflexivity|apply Words_nil; constructor].
  - rewrite join_cons by discriminate. change (w ++ " "%char :: join " " (w2 :: ws)) with ([] ++ w ++ " "%char :: join " " (w2 :: ws)).
    apply Words_cons; [constructor|exact N|exact S|right; eauto|].
    revert IH. generalize (join " " (w2 :: ws)). intros b IH.
    inversion IH as [g G E1 E2|g w' rest ws' G N' S' R W E1 E2]; subst.
    change (" "%char :: g ++ w2 ++ rest) with ((" "%char :: g) ++ w2 ++ rest). apply Words_cons; auto. constructor; auto.
Qed.

Lemma join_no_blank ws : ws <> [] -> Forall plain ws -> ~ ends_blank (join " " ws).
Proof.
  intros N F (s & c & E & S). destruct (join_last ws N F) as (u & d & E2 & S2). rewrite E2 in E. apply app_inj_tail in E. destruct E; congruence.
Qed.

Lemma trim_char_space c : In c trim_chars -> isspace c = true.
Proof. intros H. apply isspace_iff. cbn in *. intuition subst; auto. Qed.

Lemma join_trim ws b : ws <> [] -> Forall plain ws -> b = [] \/ b = sp -> trim_of (join " " ws ++ b) (join " " ws).
Proof.
  intros N F B. exists [], b. split; [reflexivity|]. split; [constructor|]. split.
  - destruct B as [->| ->]; repeat constructor.
  - intros c u I. apply trim_char_space in I. split; intros E.
    + destruct (join_first ws N F) as (d & v & w & E2 & S & _). rewrite E2 in E. congruence.
    + destruct (join_last ws N F) as (v & d & E2 & S). rewrite E2 in E. apply app_inj_tail in E. destruct E; congruence.
Qed.

Lemma join_no_newline ws b : Forall plain ws -> b = [] \/ b = sp -> ~ In "010"%char (join " " ws ++ b).
Proof.
  intros F B I. apply in_app_or in I. destruct I as [I|I].
  - revert I. induction F as [|w ws [N S] F IH]; [easy|]. destruct ws as [|w2 ws].
    + cbn [join]. intros I. unfold no_space in S. rewrite Forall_forall in S. apply S in I. discriminate.
    + rewrite join_cons by discriminate. intros I. apply in_app_or in I. destruct I as [I|[I|I]]; [|discriminate|auto].
      unfold no_space in S. rewrite Forall_forall in S. apply S in I. discriminate.
  - destruct B as [->| ->]; cbn in I; [easy|]. destruct I as [I|[]]. discriminate.
Qed.

(** A list of such lines: the words are kept. *)
Definition not_comment (ws : list bytes) : Prop := match ws with (c :: _) :: _ => c <> "#"%char | _ => True end.

Lemma kept_words (b : bytes) : b = [] \/ b = sp -> forall wss out ls, Forall (fun ws => ws <> [] /\ Forall plain ws /\ not_comment ws) wss ->
  kept ls out -> kept (map (fun ws => join " " ws ++ b) wss ++ ls) (map (join " ") wss ++ out).
Proof.
  intros B wss out ls F K. induction F as [|ws wss (N & P & C) F IH]; [exact K|]. cbn [map app].
  apply kept_line; auto.
  - apply join_trim; auto.
  - destruct (join_first ws N P) as (c & u & w & -> & _). discriminate.
  - destruct (join_first ws N P) as (c & u & w & E & _ & H). rewrite E. cbn. intros Q. injection Q as ->.
    destruct ws as [|v ws]; [congruence|]. cbn in H. injection H as ->. cbn in C. congruence.
Qed.

Lemma kept_empty k : kept (repeat [] k) [].
Proof. induction k; [constructor|]. cbn. apply (kept_skip [] []); auto. exists [], []. split; [reflexivity|]. split; [constructor|]. split; [constructor|].
  intros c u _. split; [discriminate|destruct u; discriminate]. Qed.

Lemma join_lines d ls : join d (ls ++ [[]]) = flat_map (fun l => l ++ [d]) ls.
Proof.
  induction ls as [|l ls IH]; [reflexivity|]. cbn [app flat_map]. rewrite join_cons by (destruct ls; discriminate).
  rewrite IH, <- app_assoc. reflexivity.
Qed.

(** ** Words of numbers *)
Lemma isdigit_no_space s : Forall (fun c => isdigit c = true) s -> no_space s.
Proof. intros H. eapply Forall_impl; [|exact H]. apply isdigit_not_space. Qed.

Lemma itoa_no_space z : no_space (itoa z).
Proof.
  unfold itoa. destruct (Z.ltb_spec z 0).
  - constructor; [reflexivity|]. apply isdigit_no_space. destruct (dec_digits (- z)) as (_ & F & _); [lia|exact F].
  - apply isdigit_no_space. destruct (dec_digits z) as (_ & F & _); [lia|exact F].
Qed.

Lemma point_no_space s : no_space s -> no_space (point s).
Proof. intros H. destruct s; [constructor|]. constructor; [reflexivity|exact H]. Qed.

Lemma g6_text_no_space q k : 0 <= q -> no_space (g6_text q k).
Proof.
  intros Q. destruct (dec_digits q Q) as (_ & F & _). unfold g6_text.
  destruct ((k <? -4) || (5 <? k)).
  - apply Forall_app. split; [apply isdigit_no_space, Forall_firstn, F|]. apply Forall_app. split; [apply point_no_space, isdigit_no_space, strip0_digits, Forall_skipn, F|].
    unfold exp_text. constructor; [reflexivity|]. constructor; [destruct (k <? 0); reflexivity|].
    destruct (dec_digits (Z.abs k) ltac:(lia)) as (_ & FK & _). apply isdigit_no_space. destruct (Z.abs k <? 10); [constructor; [reflexivity|exact FK]|exact FK].
  - destruct (k <? 0).
    + constructor; [reflexivity|]. apply point_no_space, isdigit_no_space, Forall_app. split; [apply zeros_digits|apply strip0_digits, F].
    + apply Forall_app. split; [apply isdigit_no_space, Forall_firstn, F|apply point_no_space, isdigit_no_space, strip0_digits, Forall_skipn, F].
Qed.

Lemma g6_no_space x : no_space (g6 x).
Proof.
  destruct x as [s|s| |s m e H]; cbn [g6].
  1,2: destruct s; repeat constructor. { repeat constructor. }
  destruct (six m e) as [q k] eqn:E. destruct (six_ok m e q k E) as [Hq _].
  destruct s; cbn [app]; [constructor; [reflexivity|]|]; apply g6_text_no_space; lia.
Qed.

Lemma g6_word x : is_finite x = true -> exists x', number_word (g6 x) x' /\ reread x x'.
Proof.
  intros F. destruct (g6_number x F) as (ds & k & T & V). destruct (strtod_g6 x F) as [D _].
  exists (fst (strtod (g6 x))). split; [|exact D]. split; [apply g6_no_space|]. exists (Bsign x), ds, k. split; [exact T|]. rewrite V. exact D.
Qed.

Lemma number_plain neg ds k w : number_text neg ds k w -> no_space w -> plain w /\ not_comment [w].
Proof.
  intros N S. destruct (number_head neg ds k w N S) as (c & t & -> & C). split; [split; [discriminate|exact S]|]. cbn. intros ->.
  destruct C as [C|C]; [discriminate|]. cbn in C. intuition discriminate.
Qed.

Lemma word_plain w x : number_word w x -> plain w /\ not_comment [w].
Proof. intros (S & neg & ds & k & N & _). exact (number_plain neg ds k w N S). Qed.

Lemma itoa_plain z : plain (itoa z).
Proof. apply (number_plain _ _ _ _ (itoa_number z) (itoa_no_space z)). Qed.

(** ** Conversions *)
Lemma Btrunc_int x z : is_finite x = true -> B2R x = IZR z -> Btrunc (x : f64) = z.
Proof.
  intros F E. apply eq_IZR. rewrite (Btrunc_correct 53 1024 prec_lt_53), E.
  unfold round, F2R, scaled_mantissa, cexp, FIX_exp. cbn [Fnum Fexp].
  change (bpow radix2 (- 0)) with 1%R. change (bpow radix2 0) with 1%R. rewrite !Rmult_1_r. now rewrite Ztrunc_IZR.
Qed.

Lemma cast_int_exact lo hi x z : is_finite x = true -> B2R x = IZR z -> lo <= z <= hi -> cast_int lo hi x = Ok z.
Proof.
  intros F E L. unfold cast_int. rewrite F, (Btrunc_int x z F E). replace ((lo <=? z) && (z <=? hi)) with true by lia. reflexivity.
Qed.

Lemma f_int_of_int z : in_int z -> f_int (of_int z) = Ok z.
Proof.
  intros [A B]. unfold INT_MIN, INT_MAX in *. destruct (of_int_exact z ltac:(lia)) as [F E]. apply cast_int_exact; auto.
Qed.

(** ** Reading printed numbers again *)
Lemma to_double_le a b : (a <= b)%R -> (to_double a <= to_double b)%R.
Proof. intros H. apply round_le; [apply FLT_exp_valid; reflexivity|apply valid_rnd_N|exact H]. Qed.

Lemma six_digits_le a b : (a <= b)%R -> (six_digits a <= six_digits b)%R.
Proof. intros H. apply round_le; [apply FLX_exp_valid; reflexivity|apply valid_rnd_N|exact H]. Qed.

Lemma e22_six : six_digits (IZR (10 ^ 22)) = IZR (10 ^ 22).
Proof.
  apply six_digits_fix. exists 1, 22. split; [|lia]. rewrite Rmult_1_l. rewrite <- (IZR_Zpower radix10) by lia. reflexivity.
Qed.

Lemma e22_double : to_double (IZR (10 ^ 22)) = IZR (10 ^ 22).
Proof.
  apply round_generic; [apply valid_rnd_N|]. apply generic_format_FLT.
  apply FLT_spec with (f := Float radix2 2384185791015625 22); [|apply Z.ltb_lt; vm_compute; reflexivity|apply Z.leb_le; vm_compute; reflexivity].
  unfold F2R. cbn [Fnum Fexp]. rewrite <- (IZR_Zpower radix2) by lia. rewrite <- mult_IZR. apply (f_equal IZR). vm_compute. reflexivity.
Qed.

Lemma to_double_opp y : to_double (- y) = (- to_double y)%R.
Proof. apply round_NE_opp. Qed.

Lemma reread_bound y : (Rabs y <= IZR (10 ^ 22))%R -> (Rabs (to_double (six_digits y)) <= IZR (10 ^ 22))%R.
Proof.
  intros H. apply Rabs_le_inv in H. destruct H as [A B]. apply Rabs_le. split.
  - rewrite <- e22_double, <- to_double_opp. apply to_double_le. rewrite <- e22_six, <- six_digits_opp. apply six_digits_le. exact A.
  - rewrite <- e22_double. apply to_double_le. rewrite <- e22_six. apply six_digits_le. exact B.
Qed.

Lemma reread_ordinary x x' : ordinary x -> reread x x' -> ordinary x'.
Proof.
  intros [F B] [(F' & E & _)|(-> & C)].
  - split; [exact F'|]. rewrite E. apply reread_bound, B.
  - exfalso. pose proof (reread_bound _ B) as D. apply (Rle_trans _ _ _ C) in D. revert D. apply Rlt_not_le.
    rewrite <- (IZR_Zpower radix2) by lia. apply IZR_lt. vm_compute. reflexivity.
Qed.

Lemma reread_cell x x' : cell_size x -> reread x x' -> cell_size x'.
Proof.
  intros [O P] R. pose proof (reread_ordinary x x' O R) as O'. split; [exact O'|]. destruct R as [(F' & E & _)|(-> & C)]; [|destruct O'; discriminate].
  rewrite E, <- to_double_0. apply to_double_le. rewrite <- six_digits_0. apply six_digits_le, P.
Qed.

(** ** The header *)
Definition header_words (cols rows : Z) (x y cs nd : f64) : list (list bytes) :=
  [[K_NCOLS; itoa cols]; [K_NROWS; itoa rows]; [K_XLL; g6 x]; [K_YLL; g6 y]; [K_CELLSIZE; g6 cs]; [K_NODATA; g6 nd]].

Definition lines_text (wss : list (list bytes)) : bytes := flat_map (fun ws => join " " ws ++ newline) wss.

Lemma write_headers h cols rows x y cs nd : header_shows h cols rows x y cs nd -> in_int cols -> in_int rows ->
  WriteAscHeaders true h = Ok (Some (lines_text (header_words cols rows x y cs nd))).
Proof.
  intros (H1 & H2 & H3 & H4 & H5 & H6) C R. unfold WriteAscHeaders, at_get. cbn [negb].
  unfold K_NROWS at 1. unfold K_NCOLS at 1. unfold K_XLL at 1. unfold K_YLL at 1. unfold K_CELLSIZE at 1. unfold K_NODATA at 1.
  rewrite H2. cbn [obind]. rewrite (f_int_of_int rows R). cbn [obind]. rewrite H1. cbn [obind]. rewrite (f_int_of_int cols C). cbn [obind].
  rewrite H3, H4, H5, H6. cbn [obind]. do 2 f_equal.
  cbn [lines_text header_words flat_map join]. unfold blank. rewrite <- !app_assoc, app_nil_r. reflexivity.
Qed.

Lemma header_words_plain cols rows x y cs nd : is_finite x = true -> is_finite y = true -> is_finite cs = true -> is_finite nd = true ->
  Forall (fun ws => ws <> [] /\ Forall plain ws /\ not_comment ws) (header_words cols rows x y cs nd).
Proof.
  intros FX FY FC FN.
  assert (G : forall v, is_finite v = true -> plain (g6 v)).
  { intros v F. destruct (g6_word v F) as (x' & W & _). apply (word_plain _ _ W). }
  pose proof (itoa_plain cols). pose proof (itoa_plain rows). pose proof (G x FX). pose proof (G y FY). pose proof (G cs FC). pose proof (G nd FN).
  unfold header_words.
  repeat (constructor; [split; [discriminate|split; [constructor; [split; [discriminate|repeat constructor]|constructor; [assumption|constructor]]|vm_compute; discriminate]]|]).
  constructor.
Qed.

Lemma same_letters_refl k : Forall2 same_letter k k.
Proof. induction k; constructor; auto. left. reflexivity. Qed.

Lemma header_lines_written cols rows x y cs nd : in_int cols -> in_int rows -> is_finite x = true -> is_finite y = true -> is_finite cs = true -> is_finite nd = true ->
  exists x' y' cs' nd', reread x x' /\ reread y y' /\ reread cs cs' /\ reread nd nd' /\
    Forall2 header_line (map (join " ") (header_words cols rows x y cs nd)) [FCols cols; FRows rows; FX false x'; FY false y'; FCell cs'; FNoData nd'].
Proof.
  intros HC HR FX FY FC FN. pose proof (header_words_plain cols rows x y cs nd FX FY FC FN) as P.
  destruct (g6_word x FX) as (x' & Wx & Rx). destruct (g6_word y FY) as (y' & Wy & Ry).
  destruct (g6_word cs FC) as (cs' & Wc & Rc). destruct (g6_word nd FN) as (nd' & Wn & Rn).
  exists x', y', cs', nd'. repeat (split; [assumption|]).
  assert (G : forall k w f, Forall plain [k; w] -> k = keyword f -> entry_word w f -> header_line (join " " [k; w]) f).
  { intros k w f F -> E. exists (keyword f), w, []. split; [apply join_Words, F|]. split; [apply join_no_blank; [discriminate|exact F]|]. split; [apply same_letters_refl|exact E]. }
  unfold header_words in *. cbn [map].
  repeat match goal with H : Forall _ (_ :: _) |- _ => let A := fresh in let B := fresh in apply Forall_cons_iff in H; destruct H as [A B] end.
  repeat match goal with H : _ /\ Forall plain _ /\ _ |- _ => destruct H as (_ & H & _) end.
  repeat constructor; apply G; auto; cbn [entry_word]; try (split; [apply itoa_canonical|assumption]); assumption.
Qed.

(** ** The cells *)
Definition row_words (cell : Z -> Z -> bytes) (cols i : Z) : list bytes := map (cell i) (zseq cols).

Lemma row_text_join (f : Z -> bytes) l : l <> [] -> flat_map (fun j => f j ++ sp) l = join " " (map f l) ++ sp.
Proof.
  induction l as [|a l IH]; intros N; [congruence|]. destruct l as [|b l].
  - cbn. now rewrite app_nil_r.
  - cbn [flat_map map] in *. rewrite IH by discriminate. rewrite (join_cons " " (f a)) by discriminate. unfold sp at 1. rewrite <- !app_assoc. reflexivity.
Qed.

Lemma zseq_nonempty n : 0 < n -> zseq n <> [].
Proof. intros H E. pose proof (zseq_length n) as L. rewrite E in L. cbn in L. lia. Qed.

Lemma grid_text_lines cell rows cols : 0 < cols ->
  grid_text cell rows cols = flat_map (fun l => l ++ newline) (map (fun ws => join " " ws ++ sp) (map (row_words cell cols) (zseq rows))).
Proof.
  intros C. unfold grid_text. rewrite map_map. rewrite flat_map_concat_map, flat_map_concat_map, map_map. f_equal. apply map_ext. intros i.
  unfold row_text, row_words. rewrite <- row_text_join by (apply zseq_nonempty, C). reflexivity.
Qed.

Lemma lines_text_lines wss : lines_text wss = flat_map (fun l => l ++ newline) (map (fun ws => join " " ws ++ []) wss).
Proof. unfold lines_text. rewrite !flat_map_concat_map, map_map. f_equal. apply map_ext. intros. now rewrite app_nil_r. Qed.

Lemma flat_map_length_ge (d : ascii) ls : (length ls <= length (flat_map (fun l => l ++ [d]) ls))%nat.
Proof. induction ls; cbn [flat_map length]; [lia|]. rewrite !app_length. cbn [length]. lia. Qed.

Lemma repeat_lines (d : ascii) k : flat_map (fun l => l ++ [d]) (repeat [] k) = repeat d k.
Proof. induction k; cbn; [reflexivity|]. now rewrite IHk. Qed.

Section Grid.
Context {T : Type}.
Variable cast : f64 -> outcome T.

Theorem read_grid cols rows x y cs nd cell val v k fuel h text :
  grid_size rows cols -> ordinary x -> ordinary y -> cell_size cs -> is_finite nd = true ->
  (forall i j, 0 <= i < rows -> 0 <= j < cols -> number_word (cell i j) (val i j) /\ cast (val i j) = Ok (v i j)) ->
  (forall nd', reread nd nd' -> exists w, cast nd' = Ok w) ->
  text = lines_text (header_words cols rows x y cs nd) ++ grid_text cell rows cols ++ repeat "010"%char k ->
  (length text < fuel)%nat ->
  exists h' x' y' cs' nd', reread x x' /\ reread y y' /\ reread cs cs' /\ reread nd nd' /\
    ReadAscFile cast fuel (Some {| content := text; read_error := false |}) h None =
      Some (Ok (true, h', Some (flat_map (fun i => map (v i) (zseq cols)) (zseq rows)))) /\
    header_read h h' cols rows x' y' cs' nd'.
Proof.
  intros (GR & GC & GN) OX OY OC FN CE CN -> FU.
  destruct (header_lines_written cols rows x y cs nd) as (x' & y' & cs' & nd' & Dx & Dy & Dc & Dn & HL);
    try (unfold in_int, INT_MIN, INT_MAX in *; nia); try apply OX; try apply OY; try apply (proj1 OC); auto.
  destruct (CN nd' Dn) as (w & CW).
  set (hw := header_words cols rows x y cs nd) in *. set (rw := map (row_words cell cols) (zseq rows)).
  set (L := map (fun ws => join " " ws ++ []) hw ++ map (fun ws => join " " ws ++ sp) rw ++ repeat [] k).
  assert (TX : lines_text hw ++ grid_text cell rows cols ++ repeat "010"%char k = join "010" (L ++ [[]])).
  { rewrite join_lines. unfold L. rewrite !flat_map_app, repeat_lines, <- lines_text_lines. f_equal. f_equal.
    unfold rw. apply grid_text_lines, GC. }
  rewrite TX in *. rewrite join_lines in FU. pose proof (flat_map_length_ge "010" L) as LL.
  assert (PR : Forall (fun ws => ws <> [] /\ Forall plain ws /\ not_comment ws) rw).
  { apply Forall_forall. intros ws I. apply in_map_iff in I. destruct I as (i & <- & I). apply zseq_In in I. unfold row_words.
    pose proof (zseq_nonempty cols GC) as ZN. split; [intros E; apply map_eq_nil in E; contradiction|]. split.
    - apply Forall_forall. intros u U. apply in_map_iff in U. destruct U as (j & <- & J). apply zseq_In in J.
      destruct (CE i j I J) as [W _]. apply (word_plain _ _ W).
    - destruct (zseq cols) as [|j l] eqn:E; [congruence|]. assert (J : 0 <= j < cols) by (apply zseq_In; rewrite E; now left).
      cbn [map not_comment]. destruct (CE i j I J) as [W _]. destruct (word_plain _ _ W) as [_ Q]. exact Q. }
  assert (PH : Forall (fun ws => ws <> [] /\ Forall plain ws /\ not_comment ws) hw).
  { apply header_words_plain; auto; try apply OX; try apply OY; apply (proj1 OC). }
  assert (TF : text_file (L ++ [[]]) (join "010" (L ++ [[]]))).
  { split; [destruct L; discriminate|]. split; [|reflexivity]. apply Forall_app. split; [|constructor; [easy|constructor]].
    unfold L. apply Forall_app. split; [|apply Forall_app; split].
    - apply Forall_forall. intros l I. apply in_map_iff in I. destruct I as (ws & <- & I). rewrite Forall_forall in PH. apply join_no_newline; [apply PH, I|auto].
    - apply Forall_forall. intros l I. apply in_map_iff in I. destruct I as (ws & <- & I). rewrite Forall_forall in PR. apply join_no_newline; [apply PR, I|auto].
    - apply Forall_forall. intros l I. apply repeat_spec in I. subst. easy. }
  assert (KK : kept (L ++ [[]]) (map (join " ") hw ++ map (join " ") rw)).
  { unfold L. rewrite <- !app_assoc. apply kept_words; [auto|exact PH|]. rewrite <- (app_nil_r (map (join " ") rw)) at 1.
    apply kept_words; [auto|exact PR|]. change [[]] with (repeat (@nil ascii) 1). rewrite <- repeat_app. apply kept_empty. }
  assert (BF : Forall2 number_line (map (join " ") rw) (map (fun i => map (val i) (zseq cols)) (zseq rows))).
  { unfold rw. rewrite map_map.
    assert (G : forall l, (forall i, In i l -> 0 <= i < rows) -> Forall2 number_line (map (fun i => join " " (row_words cell cols i)) l) (map (fun i => map (val i) (zseq cols)) l)).
    { induction l as [|i l IH]; intros I; [constructor|]. cbn [map]. constructor; [|apply IH; intros; apply I; now right].
      assert (IP : In (row_words cell cols i) rw). { unfold rw. apply in_map, zseq_In, I. now left. }
      rewrite Forall_forall in PR. destruct (PR _ IP) as (P1 & P2 & P3).
      exists (row_words cell cols i). split; [apply join_Words, P2|]. split; [apply join_no_blank; assumption|]. split; [exact P1|].
      unfold row_words. assert (Q : forall l', (forall j, In j l' -> 0 <= j < cols) -> Forall2 number_word (map (cell i) l') (map (val i) l')).
      { induction l' as [|j l' IH']; intros J; constructor; [apply CE; [apply I; now left|apply J; now left]|apply IH'; intros; apply J; now right]. }
      apply Q. intros j. apply zseq_In. }
    apply G. intros i. apply zseq_In. }
  assert (CC : Forall2 (fun x c => cast x = Ok c) (concat (map (fun i => map (val i) (zseq cols)) (zseq rows))) (flat_map (fun i => map (v i) (zseq cols)) (zseq rows))).
  { rewrite flat_map_concat_map.
    assert (G : forall l, (forall i, In i l -> 0 <= i < rows) -> Forall2 (fun x c => cast x = Ok c) (concat (map (fun i => map (val i) (zseq cols)) l)) (concat (map (fun i => map (v i) (zseq cols)) l))).
    { induction l as [|i l IH]; intros I; [constructor|]. cbn [map concat]. apply Forall2_app; [|apply IH; intros; apply I; now right].
      assert (Q : forall l', (forall j, In j l' -> 0 <= j < cols) -> Forall2 (fun x c => cast x = Ok c) (map (val i) l') (map (v i) l')).
      { induction l' as [|j l' IH']; intros J; constructor; [apply CE; [apply I; now left|apply J; now left]|apply IH'; intros; apply J; now right]. }
      apply Q. intros j. apply zseq_In. }
    apply G. intros i. apply zseq_In. }
  assert (LN : length (flat_map (fun i => map (v i) (zseq cols)) (zseq rows)) = Z.to_nat (rows * cols)).
  { assert (G : forall l, length (flat_map (fun i => map (v i) (zseq cols)) l) = (length l * Z.to_nat cols)%nat).
    { induction l; [reflexivity|]. cbn [flat_map length]. rewrite app_length, map_length, zseq_length, IHl. lia. }
    rewrite G, zseq_length. lia. }
  destruct (read_counts cast (L ++ [[]]) _ (map (join " ") hw) (map (join " ") rw) _ _ fuel h cols rows false x' false y' cs' nd' w TF KK
     ltac:(rewrite app_length; cbn [length]; lia) HL (Permutation_refl _) BF) as [R1 _]; auto.
  - intros E. apply map_eq_nil in E. unfold rw in E. apply map_eq_nil in E. now apply (zseq_nonempty rows GR).
  - repeat split; auto.
  - exact (reread_ordinary x x' OX Dx).
  - exact (reread_ordinary y y' OY Dy).
  - exact (reread_cell cs cs' OC Dc).
  - destruct (R1 _ CC) as (h' & E & HR); [rewrite LN; lia|]. exists h', x', y', cs', nd'. repeat (split; [assumption|]). split; [|exact HR].
    rewrite E, LN, Nat.sub_diag. cbn [repeat]. now rewrite app_nil_r.
Qed.
End Grid.
