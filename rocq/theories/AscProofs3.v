(** Lemmas about writing ASC files. *)
From Coq Require Import ZArith Reals Ascii String List Bool Permutation Sorted Lia ZifyBool ZifyNat.
From Flocq Require Import Core BinarySingleNaN.
From Verif Require Import Base ListLib StrModel StrSpec StrProofs FsModel FsSpec FsProofs MapModel MapProofs RasterModel RasterSpec RasterProofs
  FloatModel FloatProofs CoordFloatModel TypeModel NumModel NumSpec NumProofs CopyModel AscModel AscSpec AscProofs AscProofs2.
Import ListNotations.
Open Scope Z_scope.
Open Scope outcome_scope.

Lemma ofold_text {B} (f : bytes -> B -> outcome bytes) (g : B -> bytes) l : forall a,
  (forall b acc, In b l -> f acc b = Ok (acc ++ g b)) -> ofold f l a = Ok (a ++ flat_map g l).
Proof.
  induction l as [|b l IH]; intros a H; cbn [ofold flat_map]; [now rewrite app_nil_r|].
  rewrite H by now left. cbn [obind]. rewrite IH, app_assoc; [reflexivity|]. intros; apply H; now right.
Qed.

Lemma filter_none {A} (f : A -> bool) l : (forall x, In x l -> f x = false) -> filter f l = [].
Proof. induction l as [|x l IH]; intros H; [reflexivity|]. cbn [filter]. rewrite H by now left. apply IH. intros; apply H; now right. Qed.

Section Write.
Context {T : Type}.
Variable show : T -> bytes.

(** ** An array *)
Lemma flat_grid {A} (f : Z -> A) rows cols : 0 <= rows -> 0 <= cols ->
  flat_map (fun i => map (fun j => f (i * cols + j)) (zseq cols)) (zseq rows) = map f (zseq (rows * cols)).
Proof.
  intros R C. pattern rows. apply natlike_ind; [reflexivity| |exact R]. intros n N IH.
  replace (Z.succ n) with (n + 1) by lia. rewrite zseq_S, flat_map_app, IH by lia. cbn [flat_map]. rewrite app_nil_r.
  replace ((n + 1) * cols) with (n * cols + cols) by lia. rewrite zseq_app, map_app, map_map by nia. reflexivity.
Qed.

Lemma list_as_map {A} (l : list A) d : l = map (fun k => nth (Z.to_nat k) l d) (zseq (Z.of_nat (length l))).
Proof.
  apply nth_error_ext. intros i. destruct (Nat.lt_ge_cases i (length l)) as [L|L].
  - rewrite nth_error_map, zseq_nth_nat by lia. cbn [option_map]. rewrite Nat2Z.id. now apply nth_error_nth'.
  - rewrite (proj2 (nth_error_None _ _) L). symmetry. apply nth_error_None. rewrite map_length, zseq_length. lia.
Qed.

Lemma write_single h cols rows x y cs nd vals : header_shows h cols rows x y cs nd -> grid_size rows cols -> Z.of_nat (length vals) = rows * cols ->
  exists v, (forall i j, 0 <= i < rows -> 0 <= j < cols -> In (v i j) vals) /\ vals = flat_map (fun i => map (v i) (zseq cols)) (zseq rows) /\
    WriteSingleAsc show true true h (Some vals) =
    Ok (Some (lines_text (header_words cols rows x y cs nd) ++ grid_text (fun i j => show (v i j)) rows cols ++ repeat "010"%char 1)).
Proof.
  intros H (R & C & N) L. destruct vals as [|d vals0]; [cbn in L; nia|]. set (vals := d :: vals0) in *.
  exists (fun i j => nth (Z.to_nat (i * cols + j)) vals d).
  assert (IN : forall i j, 0 <= i < rows -> 0 <= j < cols -> (Z.to_nat (i * cols + j) < length vals)%nat) by (intros; nia).
  split; [intros; apply nth_In, IN; assumption|]. split.
  { rewrite (flat_grid (fun k => nth (Z.to_nat k) vals d)) by lia. rewrite <- L. apply list_as_map. }
  unfold WriteSingleAsc. rewrite (write_headers h cols rows x y cs nd H) by (unfold in_int, INT_MIN, INT_MAX in *; nia). cbn [obind negb].
  destruct H as (H1 & H2 & _). unfold at_get, K_NROWS, K_NCOLS. rewrite H2. cbn [obind].
  rewrite f_int_of_int by (unfold in_int, INT_MIN, INT_MAX in *; nia). cbn [obind]. rewrite H1. cbn [obind].
  rewrite f_int_of_int by (unfold in_int, INT_MIN, INT_MAX in *; nia). cbn [obind deref].
  rewrite (ofold_text _ (fun i => row_text (fun j => show (nth (Z.to_nat (i * cols + j)) vals d)) cols ++ newline)).
  - cbn [obind]. do 2 f_equal. rewrite <- !app_assoc. reflexivity.
  - intros i acc I. apply zseq_In in I. rewrite (ofold_text _ (fun j => show (nth (Z.to_nat (i * cols + j)) vals d) ++ blank)).
    + cbn [obind]. rewrite <- app_assoc. reflexivity.
    + intros j acc' J. apply zseq_In in J. rewrite (aget_ok vals (i * cols + j) (nth (Z.to_nat (i * cols + j)) vals d)); [reflexivity|nia|].
      apply nth_error_nth', IN; assumption.
Qed.

(** ** A raster object *)
Variable r : raster T.

Lemma scan_direct missing lyr text : full_grid r -> layer_ok r lyr ->
  exists c, (forall i j, inside r i j -> exists v, GetValue r i j lyr = Ok v /\ c i j = show v) /\
    scan_grid show r true None missing (r_rows r) (r_cols r) lyr text = Ok (text ++ grid_text c (r_rows r) (r_cols r)).
Proof.
  intros F LO.
  exists (fun i j => match GetValue r i j lyr with Ok v => show v | _ => [] end).
  assert (G : forall i j, inside r i j -> exists v, GetValue r i j lyr = Ok v /\ read_cell r (i * r_cols r + j) lyr = Ok v).
  { intros i j I. rewrite (GetValue_full r i j lyr F I LO). destruct F as (_ & _ & _ & _ & S & _).
    destruct (read_storage r (r_rows r * r_cols r) (i * r_cols r + j) lyr S) as (v & E); [destruct I; nia|exact LO|]. exists v. rewrite E. auto. }
  split. { intros i j I. destruct (G i j I) as (v & E & _). exists v. rewrite E. auto. }
  unfold scan_grid.
  assert (ROW : forall i st, 0 <= i < r_rows r -> forall l, (forall j, In j l -> 0 <= j < r_cols r) ->
     exists k, ofold (scan_cell show r true None missing (r_cols r) lyr i) l st =
       Ok (k, snd st ++ flat_map (fun j => match GetValue r i j lyr with Ok v => show v | _ => [] end ++ [" "%char]) l)).
  { intros i st I l. revert st. induction l as [|j l IH]; intros st J; cbn [ofold flat_map].
    - exists (fst st). rewrite app_nil_r. now destruct st.
    - unfold scan_cell at 1. destruct (G i j) as (v & E1 & E2). { split; [exact I|apply J; now left]. }
      rewrite E2. cbn [obind]. destruct (IH (i * r_cols r + j, snd st ++ show v ++ blank)) as (k & E); [intros; apply J; now right|].
      exists k. rewrite E. cbn [snd]. rewrite E1. unfold blank. rewrite <- !app_assoc. reflexivity. }
  assert (ALL : forall l st, (forall i, In i l -> 0 <= i < r_rows r) ->
     exists k, ofold (fun st i => let* st1 := ofold (scan_cell show r true None missing (r_cols r) lyr i) (zseq (r_cols r)) st in
                         Ok (fst st1, snd st1 ++ newline)) l st =
       Ok (k, snd st ++ flat_map (fun i => row_text (fun j => match GetValue r i j lyr with Ok v => show v | _ => [] end) (r_cols r) ++ ["010"%char]) l)).
  { induction l as [|i l IH]; intros st I; cbn [ofold flat_map].
    - exists (fst st). rewrite app_nil_r. now destruct st.
    - destruct (ROW i st ltac:(apply I; now left) (zseq (r_cols r))) as (k & E); [intros j; apply zseq_In|]. rewrite E. cbn [obind fst snd].
      destruct (IH (k, (snd st ++ flat_map (fun j => match GetValue r i j lyr with Ok v => show v | _ => [] end ++ [" "%char]) (zseq (r_cols r))) ++ newline)) as (k' & E');
        [intros; apply I; now right|]. exists k'. etransitivity; [exact E'|]. cbn [snd]. unfold row_text, newline. rewrite <- !app_assoc. reflexivity. }
  destruct (ALL (zseq (r_rows r)) (0, text)) as (k & E); [intros i; apply zseq_In|]. rewrite E. reflexivity.
Qed.

(** Cells before number [c]. *)
Definition before (ix : list Z) (c : Z) : Z := Z.of_nat (length (filter (fun k => k <? c) ix)).

Lemma before_in ix c : StronglySorted Z.lt ix -> In c ix -> nth_error ix (Z.to_nat (before ix c)) = Some c /\ before ix (c + 1) = before ix c + 1.
Proof.
  unfold before. induction ix as [|k ix IH]; intros S I; [easy|]. apply StronglySorted_inv in S. destruct S as [S F]. rewrite Forall_forall in F.
  cbn [filter]. destruct I as [->|I].
  - rewrite Z.ltb_irrefl. replace (c <? c + 1) with true by lia.
    assert (N1 : filter (fun k => k <? c) ix = []). { apply filter_none. intros y Y. specialize (F y Y). lia. }
    assert (N2 : filter (fun k => k <? c + 1) ix = []). { apply filter_none. intros y Y. specialize (F y Y). lia. }
    rewrite N1, N2. split; reflexivity.
  - specialize (F c I). destruct (IH S I) as [E1 E2]. replace (k <? c) with true by lia. replace (k <? c + 1) with true by lia. cbn [length]. split; [|lia].
    rewrite Nat2Z.id in E1 |- *. exact E1.
Qed.

Lemma before_out ix c : StronglySorted Z.lt ix -> ~ In c ix -> nth_error ix (Z.to_nat (before ix c)) <> Some c /\ before ix (c + 1) = before ix c.
Proof.
  intros S N. split; [intros E; apply N; eapply nth_error_In; eauto|]. unfold before. do 2 f_equal. clear S.
  induction ix as [|k ix IH]; [reflexivity|]. cbn [filter]. rewrite IH by (intros I; apply N; now right).
  assert (k <> c) by (intros ->; apply N; now left). replace (k <? c + 1) with (k <? c) by lia. reflexivity.
Qed.

Lemma before_0 ix : Forall (fun k => 0 <= k) ix -> before ix 0 = 0.
Proof. intros F. unfold before. rewrite filter_none; [reflexivity|]. rewrite Forall_forall in F. intros k I. specialize (F k I). lia. Qed.

Definition memb (ix : list Z) (c : Z) : bool := existsb (Z.eqb c) ix.
Lemma memb_iff ix c : memb ix c = true <-> In c ix.
Proof. unfold memb. rewrite existsb_exists. split; [intros (x & I & E); apply Z.eqb_eq in E; now subst|intros I; exists c; split; [exact I|lia]]. Qed.

Lemma scan_compact ix missing lyr text : compact r ix -> layer_ok r lyr ->
  exists c, (forall i j, inside r i j -> exists v, GetValue r i j lyr = Ok v /\
               ((In (i * r_cols r + j) ix /\ c i j = show v) \/ (~ In (i * r_cols r + j) ix /\ v = r_nodata r /\ c i j = missing))) /\
    scan_grid show r false (r_pos r) missing (r_rows r) (r_cols r) lyr text = Ok (text ++ grid_text c (r_rows r) (r_cols r)).
Proof.
  intros CM LO. pose proof CM as (R & C & NL & NC & NI & ST & CA & PI & PO & SO & FA).
  set (cl := fun i j => match GetValue r i j lyr with Ok v => if memb ix (i * r_cols r + j) then show v else missing | _ => [] end). exists cl.
  assert (G : forall i j, inside r i j -> exists v, GetValue r i j lyr = Ok v /\
     ((In (i * r_cols r + j) ix /\ read_cell r (before ix (i * r_cols r + j)) lyr = Ok v) \/ (~ In (i * r_cols r + j) ix /\ v = r_nodata r))).
  { intros i j I. destruct (GetValue_compact r ix i j lyr CM I LO) as [(m & _ & M & N & E)|(_ & N & E)].
    - destruct (read_storage r (r_ncells r) m lyr ST M LO) as (v & V). exists v. rewrite E. split; [exact V|]. left.
      pose proof (nth_error_In _ _ N) as IN. split; [exact IN|]. destruct (before_in ix _ SO IN) as [B _].
      pose proof (sorted_nth_inj _ _ _ _ SO N B) as Q. replace (before ix (i * r_cols r + j)) with m; [exact V|]. unfold before in *. lia.
    - exists (r_nodata r). split; [exact E|]. now right. }
  split.
  { intros i j I. destruct (G i j I) as (v & E & [(IN & _)|(N & V)]); exists v; (split; [exact E|]); unfold cl; rewrite E.
    - left. rewrite (proj2 (memb_iff ix _) IN). auto.
    - right. destruct (memb ix (i * r_cols r + j)) eqn:M; [apply memb_iff in M; contradiction|]. auto. }
  assert (CELL : forall i j t, inside r i j -> scan_cell show r false (r_pos r) missing (r_cols r) lyr i (before ix (i * r_cols r + j), t) j =
     Ok (before ix (i * r_cols r + j + 1), t ++ cl i j ++ [" "%char])).
  { intros i j t I. unfold scan_cell. cbn [fst snd]. rewrite PO. cbn [deref obind].
    destruct (G i j I) as (v & E & [(IN & RD)|(N & V)]); unfold cl; rewrite E.
    - rewrite (proj2 (memb_iff ix _) IN). destruct (before_in ix _ SO IN) as [B1 B2]. rewrite B2.
      assert (L : (Z.to_nat (before ix (i * r_cols r + j)) < length ix)%nat) by (apply nth_error_Some; congruence).
      replace (before ix (i * r_cols r + j) <? r_ncells r) with true by (unfold before in *; lia).
      rewrite (aget_ok _ _ (i, j)).
      + cbn [obind fst snd]. rewrite !Z.eqb_refl. cbn [andb]. rewrite RD. reflexivity.
      + unfold before. lia.
      + rewrite nth_error_map, B1. cbn [option_map]. destruct I as [I J]. do 2 f_equal.
        * rewrite Z.div_add_l by lia. rewrite Z.div_small by lia. lia.
        * rewrite Z.add_comm, Z.mod_add by lia. apply Z.mod_small. lia.
    - destruct (memb ix (i * r_cols r + j)) eqn:M; [apply memb_iff in M; contradiction|].
      destruct (before_out ix _ SO N) as [B1 B2]. rewrite B2. destruct (before ix (i * r_cols r + j) <? r_ncells r) eqn:L; [|reflexivity].
      destruct (nth_error ix (Z.to_nat (before ix (i * r_cols r + j)))) as [k|] eqn:K.
      + rewrite (aget_ok _ _ (k / r_cols r, k mod r_cols r)).
        * cbn [obind fst snd]. destruct (((k / r_cols r) =? i) && ((k mod r_cols r) =? j)) eqn:Q; [|reflexivity]. exfalso. apply B1. f_equal.
          pose proof (Z.div_mod k (r_cols r)). lia.
        * unfold before. lia.
        * rewrite nth_error_map, K. reflexivity.
      + apply nth_error_None in K. unfold before in *. lia. }
  assert (ROW : forall i t, 0 <= i < r_rows r -> forall n, 0 <= n <= r_cols r ->
     ofold (scan_cell show r false (r_pos r) missing (r_cols r) lyr i) (zseq n) (before ix (i * r_cols r), t) =
       Ok (before ix (i * r_cols r + n), t ++ flat_map (fun j => cl i j ++ [" "%char]) (zseq n))).
  { intros i t I n [N0 N1]. revert N1. pattern n. apply natlike_ind; [|clear n N0; intros n N0 IH N1|exact N0].
    - intros _. rewrite Z.add_0_r, zseq_0 by lia. cbn [ofold flat_map]. now rewrite app_nil_r.
    - replace (Z.succ n) with (n + 1) by lia. rewrite zseq_S, ofold_app, IH by lia. cbn [obind ofold].
      rewrite CELL by (split; lia). cbn [obind]. rewrite flat_map_app. cbn [flat_map]. rewrite app_nil_r, Z.add_assoc, <- app_assoc. reflexivity. }
  assert (ALL : forall n t, 0 <= n <= r_rows r ->
     ofold (fun st i => let* st1 := ofold (scan_cell show r false (r_pos r) missing (r_cols r) lyr i) (zseq (r_cols r)) st in
                         Ok (fst st1, snd st1 ++ newline)) (zseq n) (0, t) =
       Ok (before ix (n * r_cols r), t ++ flat_map (fun i => row_text (cl i) (r_cols r) ++ ["010"%char]) (zseq n))).
  { intros n t [N0 N1]. revert N1. pattern n. apply natlike_ind; [|clear n N0; intros n N0 IH N1|exact N0].
    - intros _. rewrite (zseq_0 0) by lia. cbn [ofold flat_map Z.mul]. rewrite app_nil_r, before_0; [reflexivity|].
      eapply Forall_impl; [|exact FA]. cbn. lia.
    - replace (Z.succ n) with (n + 1) by lia. rewrite zseq_S, ofold_app, IH by lia. cbn [obind ofold].
      rewrite ROW by lia. cbn [obind fst snd]. rewrite flat_map_app. cbn [flat_map]. rewrite app_nil_r.
      replace ((n + 1) * r_cols r) with (n * r_cols r + r_cols r) by lia. unfold row_text at 2. rewrite <- !app_assoc. reflexivity. }
  unfold scan_grid. rewrite ALL by lia. reflexivity.
Qed.
End Write.
