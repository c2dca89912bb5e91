(** A file with two grids, one behind the other. *)
From Coq Require Import ZArith Reals Ascii String List Bool Permutation Sorted Lia ZifyBool ZifyNat Lra.
From Flocq Require Import Core BinarySingleNaN.
From Verif Require Import Base ListLib StrModel StrSpec StrProofs FsModel FsSpec FsProofs MapModel MapProofs RasterModel RasterSpec RasterProofs
  FloatModel FloatProofs CoordFloatModel TypeModel NumModel NumSpec NumProofs CopyModel AscModel AscSpec AscProofs AscProofs2 AscProofs3 AscProofs4 AscProofs5.
Import ListNotations.
Open Scope Z_scope.
Open Scope outcome_scope.

Section Two.
Context {T : Type}.
Variable show : T -> bytes.
Variable cast : f64 -> outcome T.

Theorem two_grids ls text hdr1 body1 hdr2 l rest fs1 fs2 xss x xs fuel h cols1 rows1 x1 y1 cs1 nd1 cols2 rows2 x2 y2 cs2 nd2 v vs c :
  text_file ls text -> kept ls (hdr1 ++ body1 ++ hdr2 ++ l :: rest) -> (length ls <= fuel)%nat ->
  Forall2 header_line hdr1 fs1 -> Permutation fs1 [FCols cols1; FRows rows1; FX false x1; FY false y1; FCell cs1; FNoData nd1] ->
  Forall2 number_line body1 xss -> body1 <> [] -> grid_size rows1 cols1 -> cast nd1 = Ok v ->
  Forall2 (fun x c => cast x = Ok c) (concat xss) vs -> Z.of_nat (length vs) = rows1 * cols1 ->
  Forall2 header_line hdr2 fs2 -> Permutation fs2 [FCols cols2; FRows rows2; FX false x2; FY false y2; FCell cs2; FNoData nd2] ->
  grid_size rows2 cols2 -> number_line l (x :: xs) -> cast x = Ok c ->
  ReadAscFile cast fuel (Some {| content := text; read_error := false |}) h None =
  Some (if rows1 * cols1 =? rows2 * cols2 then Ok (false, h, None) else UB).
Proof.
  intros TF K FU HF1 P1 BF NB (GR & GC & GN) D CV LV HF2 P2 (GR2 & GC2 & GN2) (ws & W & B & NN & F) CX.
  assert (L6 : length hdr1 = 6%nat) by (rewrite (F2_length _ _ _ HF1), (Permutation_length P1); reflexivity).
  rewrite (read_lines cast ls text _ fuel h TF K FU) by (rewrite !app_length; cbn [length]; lia).
  rewrite ofold_app, (header_lines_ok cast hdr1 fs1 HF1). cbn [obind].
  rewrite (six_fields cast fs1 cols1 rows1 false x1 false y1 cs1 nd1 (asc0 None) eq_refl eq_refl P1). cbn [a_vidx a_vals asc0].
  set (s := mkAsc cols1 rows1 x1 y1 cs1 nd1 false false 0 None).
  assert (E : ofold (asc_line cast) body1 (s, true) = ofold (asc_line cast) body1 (at_cell s v [], true)).
  { destruct BF as [|l0 xs0 body xss0 B1 B2]; [congruence|]. eapply first_line; eauto. }
  rewrite ofold_app, E. rewrite (lines_ok cast s v GR GC GN body1 xss BF vs [] CV) by (cbn [length a_rows a_cols s]; lia). cbn [app obind].
  rewrite ofold_app, (header_lines_ok cast hdr2 fs2 HF2). cbn [obind].
  rewrite (six_fields cast fs2 cols2 rows2 false x2 false y2 cs2 nd2 (at_cell s v vs) eq_refl eq_refl P2).
  cbn [ofold]. rewrite (number_line_eq cast l ws _ _ W B NN F). unfold data_line. cbn [at_cell set_vals init_values a_vals a_vidx obind].
  destruct ws as [|w ws]; [congruence|]. inversion F as [|? ? ? ? F1 F2]; subst. cbn [ofold]. unfold put_token at 1. cbn [fst snd negb].
  rewrite (word_double w x F1). cbn [negb a_rows a_cols a_vidx a_vals]. rewrite imul_ok by assumption. cbn [obind]. rewrite LV.
  destruct (rows1 * cols1 =? rows2 * cols2); cbn [obind].
  - rewrite stop_token. cbn [obind]. rewrite stop_line. cbn [obind snd fst]. reflexivity.
  - rewrite CX. cbn [obind deref]. unfold filled. cbn [a_rows a_cols s]. unfold aset. replace (rows1 * cols1 <? 0) with false by lia. rewrite app_length, repeat_length.
    replace (Z.to_nat (rows1 * cols1) <? length vs + (Z.to_nat (rows1 * cols1) - length vs))%nat with false by lia. reflexivity.
Qed.

(** The parts of a written grid. *)
Lemma grid_parts h0 cols rows x y cs nd vals text :
  header_shows h0 cols rows x y cs nd -> grid_size rows cols -> Z.of_nat (length vals) = rows * cols ->
  ordinary x -> ordinary y -> cell_size cs -> is_finite nd = true -> Forall (readable show cast) vals ->
  WriteSingleAsc show true true h0 (Some vals) = Ok (Some text) ->
  exists L hdr body xss x' y' cs' nd', text = flat_map (fun l => l ++ ["010"%char]) L /\ Forall (fun l => ~ In "010"%char l) L /\ (length L <= length text)%nat /\
    kept (L ++ [[]]) (hdr ++ body) /\ Forall2 header_line hdr [FCols cols; FRows rows; FX false x'; FY false y'; FCell cs'; FNoData nd'] /\ reread nd nd' /\
    Forall2 number_line body xss /\ body <> [] /\ Forall (fun xs => xs <> []) xss /\ Forall2 (fun x c => cast x = Ok c) (concat xss) vals.
Proof.
  intros HS G LV OX OY OC FN FR W. destruct (write_single show h0 cols rows x y cs nd vals HS G LV) as (v & IV & EV & EW).
  rewrite EW in W. injection W as <-. rewrite Forall_forall in FR. destruct G as (GR & GC & GN).
  set (cell := fun i j => show (v i j)). set (val := fun i j => fst (strtod (show (v i j)))).
  assert (CE : forall i j, 0 <= i < rows -> 0 <= j < cols -> number_word (cell i j) (val i j) /\ cast (val i j) = Ok (v i j)) by (intros i j I J; apply (readable_cell show cast), FR, IV; assumption).
  destruct (header_lines_written cols rows x y cs nd) as (x' & y' & cs' & nd' & Dx & Dy & Dc & Dn & HL);
    try (unfold in_int, INT_MIN, INT_MAX in *; nia); try apply OX; try apply OY; try apply (proj1 OC); auto.
  set (hw := header_words cols rows x y cs nd) in *. set (rw := map (row_words cell cols) (zseq rows)).
  set (L := map (fun ws => join " " ws ++ []) hw ++ map (fun ws => join " " ws ++ sp) rw ++ repeat [] 1).
  assert (TX : lines_text hw ++ grid_text cell rows cols ++ repeat "010"%char 1 = flat_map (fun l => l ++ ["010"%char]) L).
  { unfold L. rewrite !flat_map_app, repeat_lines, <- lines_text_lines. f_equal. f_equal. unfold rw. apply grid_text_lines, GC. }
  assert (PR : Forall (fun ws => ws <> [] /\ Forall plain ws /\ not_comment ws) rw).
  { apply Forall_forall. intros ws I. apply in_map_iff in I. destruct I as (i & <- & I). apply zseq_In in I. unfold row_words.
    pose proof (zseq_nonempty cols GC) as ZN. split; [intros E; apply map_eq_nil in E; contradiction|]. split.
    - apply Forall_forall. intros u U. apply in_map_iff in U. destruct U as (j & <- & J). apply zseq_In in J.
      destruct (CE i j I J) as [W _]. apply (word_plain _ _ W).
    - destruct (zseq cols) as [|j l] eqn:E; [congruence|]. assert (J : 0 <= j < cols) by (apply zseq_In; rewrite E; now left).
      cbn [map not_comment]. destruct (CE i j I J) as [W _]. destruct (word_plain _ _ W) as [_ Q]. exact Q. }
  assert (PH : Forall (fun ws => ws <> [] /\ Forall plain ws /\ not_comment ws) hw).
  { apply header_words_plain; auto; try apply OX; try apply OY; apply (proj1 OC). }
  exists L, (map (join " ") hw), (map (join " ") rw), (map (fun i => map (val i) (zseq cols)) (zseq rows)), x', y', cs', nd'.
  split; [exact TX|]. split; [|split; [|split; [|split; [|split; [|split; [|split; [|split]]]]]]].
  - unfold L. apply Forall_app. split; [|apply Forall_app; split].
    + apply Forall_forall. intros l I. apply in_map_iff in I. destruct I as (ws & <- & I). rewrite Forall_forall in PH. apply join_no_newline; [apply PH, I|auto].
    + apply Forall_forall. intros l I. apply in_map_iff in I. destruct I as (ws & <- & I). rewrite Forall_forall in PR. apply join_no_newline; [apply PR, I|auto].
    + apply Forall_forall. intros l I. apply repeat_spec in I. subst. easy.
  - pose proof (flat_map_length_ge "010" L) as LL. rewrite <- TX in LL. exact LL.
  - unfold L. rewrite <- !app_assoc. apply kept_words; [auto|exact PH|]. rewrite <- (app_nil_r (map (join " ") rw)) at 1.
    apply kept_words; [auto|exact PR|]. change [[]] with (repeat (@nil ascii) 1). rewrite <- repeat_app. apply kept_empty.
  - exact HL.
  - exact Dn.
  - unfold rw. rewrite map_map.
    assert (G : forall l, (forall i, In i l -> 0 <= i < rows) -> Forall2 number_line (map (fun i => join " " (row_words cell cols i)) l) (map (fun i => map (val i) (zseq cols)) l)).
    { induction l as [|i l IH]; intros I; [constructor|]. cbn [map]. constructor; [|apply IH; intros; apply I; now right].
      assert (IP : In (row_words cell cols i) rw). { unfold rw. apply in_map, zseq_In, I. now left. }
      rewrite Forall_forall in PR. destruct (PR _ IP) as (P1 & P2 & P3).
      exists (row_words cell cols i). split; [apply join_Words, P2|]. split; [apply join_no_blank; assumption|]. split; [exact P1|].
      unfold row_words. assert (Q : forall l', (forall j, In j l' -> 0 <= j < cols) -> Forall2 number_word (map (cell i) l') (map (val i) l')).
      { induction l' as [|j l' IH']; intros J; constructor; [apply CE; [apply I; now left|apply J; now left]|apply IH'; intros; apply J; now right]. }
      apply Q. intros j. apply zseq_In. }
    apply G. intros i. apply zseq_In.
  - intros E. apply map_eq_nil in E. unfold rw in E. apply map_eq_nil in E. now apply (zseq_nonempty rows GR).
  - apply Forall_forall. intros q I. apply in_map_iff in I. destruct I as (i & <- & _). intros E. apply map_eq_nil in E. now apply (zseq_nonempty cols GC).
  - rewrite EV, flat_map_concat_map.
    assert (G : forall l, (forall i, In i l -> 0 <= i < rows) -> Forall2 (fun x c => cast x = Ok c) (concat (map (fun i => map (val i) (zseq cols)) l)) (concat (map (fun i => map (v i) (zseq cols)) l))).
    { induction l as [|i l IH]; intros I; [constructor|]. cbn [map concat]. apply Forall2_app; [|apply IH; intros; apply I; now right].
      assert (Q : forall l', (forall j, In j l' -> 0 <= j < cols) -> Forall2 (fun x c => cast x = Ok c) (map (val i) l') (map (v i) l')).
      { induction l' as [|j l' IH']; intros J; constructor; [apply CE; [apply I; now left|apply J; now left]|apply IH'; intros; apply J; now right]. }
      apply Q. intros j. apply zseq_In. }
    apply G. intros i. apply zseq_In.
Qed.

Lemma trim_nil t : trim_of [] t -> t = [].
Proof. intros (a & b & E & _). symmetry in E. apply app_eq_nil in E as [_ E]. apply app_eq_nil in E as [E _]. exact E. Qed.

Lemma kept_drop L : forall o1 ls2 o2, kept (L ++ [[]]) o1 -> kept ls2 o2 -> kept (L ++ ls2) (o1 ++ o2).
Proof.
  induction L as [|l L IH]; intros o1 ls2 o2 K1 K2; cbn [app] in *.
  - inversion K1 as [|? t ? ? TR N|? t ? ? TR N K]; subst; [apply trim_nil in TR; congruence|]. inversion K; subst. exact K2.
  - inversion K1; subst; cbn [app]; [eapply kept_line; eauto|eapply kept_skip; eauto].
Qed.

Theorem written_twice h1 cols1 rows1 x1 y1 cs1 nd1 vals1 text1 h2 cols2 rows2 x2 y2 cs2 nd2 vals2 text2 fuel h :
  header_shows h1 cols1 rows1 x1 y1 cs1 nd1 -> grid_size rows1 cols1 -> Z.of_nat (length vals1) = rows1 * cols1 ->
  ordinary x1 -> ordinary y1 -> cell_size cs1 -> is_finite nd1 = true -> (forall nd', reread nd1 nd' -> exists w, cast nd' = Ok w) -> Forall (readable show cast) vals1 ->
  header_shows h2 cols2 rows2 x2 y2 cs2 nd2 -> grid_size rows2 cols2 -> Z.of_nat (length vals2) = rows2 * cols2 ->
  ordinary x2 -> ordinary y2 -> cell_size cs2 -> is_finite nd2 = true -> Forall (readable show cast) vals2 ->
  WriteSingleAsc show true true h1 (Some vals1) = Ok (Some text1) -> WriteSingleAsc show true true h2 (Some vals2) = Ok (Some text2) ->
  (length (text1 ++ text2) < fuel)%nat ->
  ReadAscFile cast fuel (Some {| content := text1 ++ text2; read_error := false |}) h None =
  Some (if rows1 * cols1 =? rows2 * cols2 then Ok (false, h, None) else UB).
Proof.
  intros A1 A2 A3 A4 A5 A6 A7 A8 A9 B1 B2 B3 B4 B5 B6 B7 B9 W1 W2 FU.
  destruct (grid_parts h1 cols1 rows1 x1 y1 cs1 nd1 vals1 text1 A1 A2 A3 A4 A5 A6 A7 A9 W1) as (L1 & hdr1 & body1 & xss1 & x1' & y1' & cs1' & nd1' & T1 & N1 & M1 & K1 & H1 & R1 & BF1 & NB1 & _ & C1).
  destruct (grid_parts h2 cols2 rows2 x2 y2 cs2 nd2 vals2 text2 B1 B2 B3 B4 B5 B6 B7 B9 W2) as (L2 & hdr2 & body2 & xss2 & x2' & y2' & cs2' & nd2' & T2 & N2 & M2 & K2 & H2 & R2 & BF2 & NB2 & NX2 & C2).
  destruct (A8 nd1' R1) as (w & CW). destruct BF2 as [|l xs body2 xss2 BL BF2]; [congruence|]. inversion NX2 as [|? ? NX _]; subst. destruct xs as [|x xs]; [congruence|].
  cbn [concat app] in C2. inversion C2 as [|? c ? cs' CX _]; subst.
  eapply (two_grids (L1 ++ L2 ++ [[]])); [| | |exact H1|apply Permutation_refl|exact BF1|exact NB1|exact A2|exact CW|exact C1|exact A3|exact H2|apply Permutation_refl|exact B2|exact BL|exact CX].
  - split; [destruct L1; [destruct L2; discriminate|discriminate]|]. split; [rewrite !Forall_app; repeat split; [exact N1|exact N2|repeat constructor; easy]|].
    rewrite app_assoc, join_lines, flat_map_app. reflexivity.
  - rewrite (app_assoc hdr1 body1). apply kept_drop; [exact K1|exact K2].
  - rewrite !app_length in *. cbn [length]. lia.
Qed.
End Two.
