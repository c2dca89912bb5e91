(** The array a raster object is written as, and the object read from an array. *)
From Coq Require Import ZArith QArith Ascii String List Bool Lia Sorted ZifyBool.
From Flocq Require Import BinarySingleNaN.
From Verif Require Import Base ListLib StrModel MapModel RasterModel RasterSpec RasterProofs BasicModel FloatModel AscModel AscSpec AscProofs CellModel GridfsModel GridfsSpec.
Import ListNotations.
Open Scope Z_scope.
Open Scope outcome_scope.

(** ** Filling a full size array *)
Section Fill.
Context {A : Type}.
Variables (L N : Z) (ix : list Z) (val : Z -> Z -> A) (nd : A).
Hypotheses (L1 : 1 <= L) (IX : Forall (fun c => 0 <= c < N) ix) (ND : NoDup ix).

Definition filled (m : nat) (b : list A) : Prop :=
  Z.of_nat (length b) = L * N /\
  forall c k, 0 <= c < N -> 0 <= k < L ->
    (forall i, (i < m)%nat -> nth_error ix i = Some c -> nth_error b (Z.to_nat (L * c + k)) = Some (val (Z.of_nat i) k)) /\
    (~ In c (firstn m ix) -> nth_error b (Z.to_nat (L * c + k)) = Some nd).

Lemma filled_0 : 0 <= N -> filled 0 (repeat nd (Z.to_nat (L * N))).
Proof.
  intros N0. split; [rewrite repeat_length; nia|]. intros c k C K. split; [lia|]. intros _. apply nth_error_repeat. nia.
Qed.

Lemma filled_S m b b' c0 : filled m b -> nth_error ix m = Some c0 -> length b' = length b ->
  (forall k, 0 <= k < L -> nth_error b' (Z.to_nat (L * c0 + k)) = Some (val (Z.of_nat m) k)) ->
  (forall j, 0 <= j < L * N -> ~ (L * c0 <= j < L * c0 + L) -> nth_error b' (Z.to_nat j) = nth_error b (Z.to_nat j)) -> filled (S m) b'.
Proof.
  intros [LB H] E LE NEW OLD. split; [congruence|]. intros c k C K. destruct (H c k C K) as [H1 H2].
  assert (FS : firstn (S m) ix = firstn m ix ++ [c0]).
  { clear - E. revert ix E. induction m as [|m IH]; intros [|a l] E; try discriminate; cbn [nth_error] in E; [injection E as ->; reflexivity|]. rewrite !firstn_cons. cbn [app]. f_equal. apply IH. exact E. }
  destruct (Z.eq_dec c c0) as [->|NE].
  - split; [|intros NI; exfalso; apply NI; rewrite FS; apply in_or_app; right; left; reflexivity].
    intros i I EI. assert (i = m). { apply (proj1 (NoDup_nth_error ix) ND); [apply nth_error_Some; congruence|congruence]. } subst i. apply NEW. exact K.
  - assert (B : 0 <= L * c + k < L * N) by nia. assert (NB : ~ (L * c0 <= L * c + k < L * c0 + L)) by (assert (c < c0 \/ c0 < c) by lia; nia).
    rewrite (OLD _ B NB). split.
    + intros i I EI. apply H1; [|exact EI]. assert (i <> m) by (intros ->; congruence). lia.
    + intros NI. apply H2. intros J. apply NI. rewrite FS. apply in_or_app. left. exact J.
Qed.

Lemma filled_all (body : option (list A) -> Z -> outcome (option (list A))) n :
  Z.of_nat (length ix) = n ->
  (forall i c0 b, nth_error ix i = Some c0 -> Z.of_nat (length b) = L * N -> 0 <= c0 < N ->
     exists b', body (Some b) (Z.of_nat i) = Ok (Some b') /\ length b' = length b /\
       (forall k, 0 <= k < L -> nth_error b' (Z.to_nat (L * c0 + k)) = Some (val (Z.of_nat i) k)) /\
       (forall j, 0 <= j < L * N -> ~ (L * c0 <= j < L * c0 + L) -> nth_error b' (Z.to_nat j) = nth_error b (Z.to_nat j))) ->
  forall b, filled 0 b -> exists b', ofold body (zseq n) (Some b) = Ok (Some b') /\ filled (length ix) b'.
Proof.
  intros <- STEP b F0. assert (Q : forall m, (m <= length ix)%nat -> exists b', ofold body (zseq (Z.of_nat m)) (Some b) = Ok (Some b') /\ filled m b').
  { induction m as [|m IH]; intros M; [exists b; split; [reflexivity|exact F0]|]. destruct IH as (b1 & E1 & F1); [lia|].
    destruct (nth_error ix m) as [c0|] eqn:E; [|apply nth_error_None in E; lia].
    assert (C0 : 0 <= c0 < N) by (rewrite Forall_forall in IX; apply IX; eapply nth_error_In; eassumption).
    destruct (STEP m c0 b1 E (proj1 F1) C0) as (b2 & E2 & L2 & N2 & O2). exists b2. split; [|eapply filled_S; eassumption].
    replace (Z.of_nat (S m)) with (Z.of_nat m + 1) by lia. rewrite zseq_S by lia. rewrite ofold_app, E1. cbn [obind ofold]. rewrite E2. reflexivity. }
  apply Q. lia.
Qed.

(** One cell, layer after layer. *)
Lemma cell_filled (get : Z -> outcome A) c0 b i : (forall k, 0 <= k < L -> get k = Ok (val i k)) -> Z.of_nat (length b) = L * N -> 0 <= c0 < N ->
  exists b', ofold (fun buf k => let* a := deref buf in let* v := get k in let* a' := aset a (L * c0 + k) v in Ok (Some a')) (zseq L) (Some b) = Ok (Some b') /\
    length b' = length b /\ (forall k, 0 <= k < L -> nth_error b' (Z.to_nat (L * c0 + k)) = Some (val i k)) /\
    (forall j, 0 <= j < L * N -> ~ (L * c0 <= j < L * c0 + L) -> nth_error b' (Z.to_nat j) = nth_error b (Z.to_nat j)).
Proof.
  intros G LB C0.
  assert (Q : forall m, (Z.of_nat m <= L) -> exists b', ofold (fun buf k => let* a := deref buf in let* v := get k in let* a' := aset a (L * c0 + k) v in Ok (Some a')) (zseq (Z.of_nat m)) (Some b) = Ok (Some b') /\
    length b' = length b /\ (forall k, 0 <= k < Z.of_nat m -> nth_error b' (Z.to_nat (L * c0 + k)) = Some (val i k)) /\
    (forall j, 0 <= j < L * N -> ~ (L * c0 <= j < L * c0 + L) -> nth_error b' (Z.to_nat j) = nth_error b (Z.to_nat j))).
  { induction m as [|m IH]; intros M.
    - exists b. split; [reflexivity|]. split; [reflexivity|]. split; [lia|auto].
    - destruct IH as (b1 & E1 & L1' & N1 & O1); [lia|]. assert (B : 0 <= L * c0 + Z.of_nat m < L * N) by nia.
      exists (upd b1 (Z.to_nat (L * c0 + Z.of_nat m)) (val i (Z.of_nat m))).
      split; [replace (Z.of_nat (S m)) with (Z.of_nat m + 1) by lia; rewrite zseq_S by lia; rewrite ofold_app, E1; cbn [obind ofold deref]; rewrite G by lia; cbn [obind]; rewrite aset_ok by lia; reflexivity|].
      split; [rewrite upd_length; exact L1'|]. split.
      + intros k K. rewrite upd_nth. destruct (Nat.eqb_spec (Z.to_nat (L * c0 + k)) (Z.to_nat (L * c0 + Z.of_nat m))) as [EQ|NQ]; cbn [andb].
        * assert (k = Z.of_nat m) by nia. subst k. replace (Z.to_nat (L * c0 + Z.of_nat m) <? length b1)%nat with true by lia. reflexivity.
        * apply N1. assert (k <> Z.of_nat m) by (intros ->; apply NQ; reflexivity). lia.
      + intros j J NJ. rewrite upd_nth. destruct (Nat.eqb_spec (Z.to_nat j) (Z.to_nat (L * c0 + Z.of_nat m))) as [EQ|NQ]; cbn [andb]; [exfalso; apply NJ; lia|]. apply O1; assumption. }
  destruct (Q (Z.to_nat L)) as (b' & E & R); [lia|]. rewrite Z2Nat.id in E, R by lia. exists b'. split; [exact E|exact R].
Qed.
End Fill.

(** ** Writing *)
Section Write.
Variable r : raster num.
Hypothesis G : grid_size (r_rows r) (r_cols r).

Lemma inside_cell i j : 0 <= i < r_rows r -> 0 <= j < r_cols r -> 0 <= i * r_cols r + j < r_rows r * r_cols r.
Proof. nia. Qed.

(** The array of a raster that has dropped cells. *)
Lemma compact_array ix pos : compact r ix -> 1 <= r_nlyrs r * (r_rows r * r_cols r) <= INT_MAX -> pos = r_pos r ->
  exists vs, full_values r (r_cols r) (r_rows r * r_cols r) pos = Ok (Some vs) /\ cell_major r vs.
Proof.
  intros C SZ ->. pose proof C as (R0 & C0 & NL & NC & NI & ST & _ & _ & PO & SO & FI).
  assert (ND : NoDup ix). { clear - SO. induction SO as [|a l S IH F]; constructor; [|exact IH]. intros I. rewrite Forall_forall in F. specialize (F a I). lia. }
  assert (VAL : exists val : Z -> Z -> num, forall i k, 0 <= i < r_ncells r -> 0 <= k < r_nlyrs r -> read_cell r i (k + 1) = Ok (val i k)).
  { exists (fun i k => match read_cell r i (k + 1) with Ok v => v | _ => r_nodata r end). intros i k I K.
    destruct (read_storage r (r_ncells r) i (k + 1) ST I) as (v & ->); [unfold layer_ok; lia|]. reflexivity. }
  destruct VAL as (val & VAL).
  assert (RC : forall i c0, nth_error ix i = Some c0 -> (let* p := deref (r_pos r) in aget p (Z.of_nat i)) = Ok (c0 / r_cols r, c0 mod r_cols r)).
  { intros i c0 E. rewrite PO. cbn [deref obind]. apply aget_ok; [lia|]. rewrite Nat2Z.id, nth_error_map, E. reflexivity. }
  assert (DM : forall c0, c0 / r_cols r * r_cols r + c0 mod r_cols r = c0) by (intros c0; rewrite Z.mul_comm; symmetry; apply Z.div_mod; lia).
  assert (DONE : forall b, filled (r_nlyrs r) (r_rows r * r_cols r) ix val (r_nodata r) (length ix) b -> cell_major r b).
  { intros b [LB F]. split; [exact LB|]. intros i j lyr I J LY. pose proof (inside_cell i j I J) as IC.
    destruct (F (i * r_cols r + j) (lyr - 1) IC) as [F1 F2]; [lia|].
    destruct (GetValue_compact r ix i j lyr C) as [(m & _ & M & E & V)|(_ & NIX & V)]; [split; assumption|exact LY| |].
    - specialize (VAL m (lyr - 1) M ltac:(lia)). replace (lyr - 1 + 1) with lyr in VAL by lia. rewrite VAL in V.
      specialize (F1 (Z.to_nat m)). rewrite Z2Nat.id in F1 by lia. exists (val m (lyr - 1)). split; [|exact V]. apply F1; [|exact E]. apply nth_error_Some. congruence.
    - exists (r_nodata r). split; [|exact V]. apply F2. rewrite firstn_all. exact NIX. }
  unfold full_values. destruct (r_is2d r) eqn:D2.
  - rewrite imul_ok by (unfold INT_MAX in *; nia). cbn [obind]. unfold init1d. replace (r_nlyrs r * (r_rows r * r_cols r) <=? 0) with false by lia.
    match goal with |- exists vs, ofold ?B _ _ = _ /\ _ => destruct (filled_all (r_nlyrs r) (r_rows r * r_cols r) ix val (r_nodata r) NL FI ND B (r_ncells r) (eq_sym NI)) with (b := repeat (r_nodata r) (Z.to_nat (r_nlyrs r * (r_rows r * r_cols r)))) as (b' & E & F) end.
    + intros i c0 b E LB CB. pose proof (RC i c0 E) as P. rewrite PO in P |- *. cbn [deref obind] in P |- *. rewrite P. cbn [obind fst snd]. rewrite DM.
      apply (cell_filled (r_nlyrs r) (r_rows r * r_cols r) val NL (fun k => read_cell r (Z.of_nat i) (k + 1)) c0 b (Z.of_nat i)); [|exact LB|exact CB].
      intros k K. apply VAL; [|exact K]. assert (i < length ix)%nat by (apply nth_error_Some; congruence). lia.
    + apply filled_0; lia.
    + exists b'. split; [exact E|apply DONE; exact F].
  - assert (L1 : r_nlyrs r = 1) by (unfold storage in ST; rewrite D2 in ST; exact (proj1 ST)). unfold init1d. replace (r_rows r * r_cols r <=? 0) with false by lia.
    match goal with |- exists vs, ofold ?B _ _ = _ /\ _ => destruct (filled_all (r_nlyrs r) (r_rows r * r_cols r) ix val (r_nodata r) NL FI ND B (r_ncells r) (eq_sym NI)) with (b := repeat (r_nodata r) (Z.to_nat (r_rows r * r_cols r))) as (b' & E & F) end.
    + intros i c0 b E LB CB. pose proof (RC i c0 E) as P. rewrite PO in P |- *. cbn [deref obind] in P |- *. rewrite P. cbn [obind fst snd]. rewrite DM.
      assert (IB : 0 <= Z.of_nat i < r_ncells r) by (assert (i < length ix)%nat by (apply nth_error_Some; congruence); lia).
      pose proof (VAL (Z.of_nat i) 0 IB ltac:(lia)) as V0. change (0 + 1) with 1 in V0. rewrite V0. cbn [obind]. rewrite L1 in *. rewrite aset_ok by lia. cbn [obind]. eexists. split; [reflexivity|]. split; [apply upd_length|]. split.
      * intros k K. assert (k = 0) by lia. subst k. replace (1 * c0 + 0) with c0 by lia. rewrite upd_nth, Nat.eqb_refl. replace (Z.to_nat c0 <? length b)%nat with true by lia. reflexivity.
      * intros j J NJ. rewrite upd_nth. destruct (Nat.eqb_spec (Z.to_nat j) (Z.to_nat c0)) as [EQ|NQ]; cbn [andb]; [exfalso; apply NJ; lia|reflexivity].
    + rewrite L1. replace (r_rows r * r_cols r) with (1 * (r_rows r * r_cols r)) at 2 by lia. apply filled_0; lia.
    + exists b'. split; [exact E|apply DONE; exact F].
Qed.

Lemma concat_nth {A} L (d : list (list A)) : Forall (fun c => length c = L) d -> forall i c k, nth_error d i = Some c -> (k < L)%nat -> nth_error (concat d) (L * i + k) = nth_error c k.
Proof.
  intros F. induction F as [|a d LA F IH]; intros i c k E K; [destruct i; discriminate|]. destruct i as [|i]; cbn [concat].
  - injection E as <-. rewrite Nat.mul_0_r, nth_error_app1 by lia. reflexivity.
  - rewrite nth_error_app2 by lia. replace (L * S i + k - length a)%nat with (L * i + k)%nat by lia. apply IH; assumption.
Qed.
Lemma concat_length {A} L (d : list (list A)) : Forall (fun c => length c = L) d -> length (concat d) = (L * length d)%nat.
Proof. intros F. induction F; cbn [concat length]; [lia|]. rewrite app_length, IHF, H. lia. Qed.

(** The array of a full raster. *)
Lemma full_array : full_grid r -> exists vs, (if r_is2d r then exists d, r_data2d r = Some d /\ d <> [] /\ vs = concat d else r_data r = Some vs) /\ cell_major r vs.
Proof.
  intros F. pose proof F as (R0 & C0 & NL & NC & ST & _). unfold storage in ST. destruct (r_is2d r) eqn:D2.
  - destruct ST as (d & ED & LD & FD). assert (FD' : Forall (fun c => length c = Z.to_nat (r_nlyrs r)) d) by (eapply Forall_impl; [|exact FD]; intros c; cbv beta; lia).
    exists (concat d). split; [exists d; split; [exact ED|]; split; [|reflexivity]; intros ->; cbn [length] in LD; nia|].
    split; [rewrite (concat_length _ d FD'); nia|]. intros i j lyr I J LY. pose proof (inside_cell i j I J) as IC.
    destruct (nth_error d (Z.to_nat (i * r_cols r + j))) as [c|] eqn:E; [|apply nth_error_None in E; lia].
    assert (LC : Z.of_nat (length c) = r_nlyrs r) by (rewrite Forall_forall in FD; apply FD; eapply nth_error_In; eassumption).
    destruct (nth_error c (Z.to_nat (lyr - 1))) as [v|] eqn:E2; [|apply nth_error_None in E2; lia]. exists v. split.
    + replace (Z.to_nat (r_nlyrs r * (i * r_cols r + j) + (lyr - 1))) with (Z.to_nat (r_nlyrs r) * Z.to_nat (i * r_cols r + j) + Z.to_nat (lyr - 1))%nat by nia.
      rewrite (concat_nth _ d FD' _ c _ E) by lia. exact E2.
    + rewrite GetValue_full; [|exact F|split; assumption|exact LY]. unfold read_cell. rewrite D2, ED. cbn [deref obind]. rewrite (aget_ok d _ c) by (lia || exact E). cbn [obind]. apply aget_ok; [lia|exact E2].
  - destruct ST as (L1 & d & ED & LD). exists d. split; [exact ED|]. split; [rewrite L1; lia|]. intros i j lyr I J LY. pose proof (inside_cell i j I J) as IC.
    destruct (nth_error d (Z.to_nat (i * r_cols r + j))) as [v|] eqn:E; [|apply nth_error_None in E; lia]. exists v. rewrite L1. replace (1 * (i * r_cols r + j) + (lyr - 1)) with (i * r_cols r + j) by lia. split; [exact E|].
    rewrite GetValue_full; [|exact F|split; assumption|exact LY]. unfold read_cell. rewrite D2, ED. cbn [deref obind]. apply aget_ok; [lia|exact E].
Qed.
End Write.

(** ** Reading *)
Lemma row_read (d : list num) a L : 0 <= a -> 0 <= L -> a + L <= Z.of_nat (length d) ->
  exists row, ofold (fun row j => let* v := aget d (a + j) in Ok (row ++ [v])) (zseq L) [] = Ok row /\ Z.of_nat (length row) = L /\
    forall k, 0 <= k < L -> nth_error row (Z.to_nat k) = nth_error d (Z.to_nat (a + k)).
Proof.
  intros A0. pattern L. intros L0. revert L0. pattern L. intros H0. revert H0.
  assert (Q : forall m, a + Z.of_nat m <= Z.of_nat (length d) -> exists row, ofold (fun row j => let* v := aget d (a + j) in Ok (row ++ [v])) (zseq (Z.of_nat m)) [] = Ok row /\ Z.of_nat (length row) = Z.of_nat m /\
    forall k, 0 <= k < Z.of_nat m -> nth_error row (Z.to_nat k) = nth_error d (Z.to_nat (a + k))).
  { induction m as [|m IH]; intros M; [exists []; repeat split; lia|]. destruct IH as (row & E & LR & N); [lia|].
    destruct (nth_error d (Z.to_nat (a + Z.of_nat m))) as [v|] eqn:EV; [|apply nth_error_None in EV; lia]. exists (row ++ [v]). split; [|split].
    - replace (Z.of_nat (S m)) with (Z.of_nat m + 1) by lia. rewrite zseq_S by lia. rewrite ofold_app, E. cbn [obind ofold]. rewrite (aget_ok d _ v) by (lia || exact EV). reflexivity.
    - rewrite app_length. cbn [length]. lia.
    - intros k K. destruct (Z.eq_dec k (Z.of_nat m)) as [->|NE]; [rewrite nth_error_app2 by lia; replace (Z.to_nat (Z.of_nat m) - length row)%nat with 0%nat by lia; cbn [nth_error]; congruence|].
      rewrite nth_error_app1 by lia. apply N. lia. }
  intros L0 B. specialize (Q (Z.to_nat L)). rewrite Z2Nat.id in Q by lia. apply Q. exact B.
Qed.

Lemma gather_all (d : list num) L n : 1 <= L -> 0 <= n -> Z.of_nat (length d) = L * n ->
  exists rows, gather d L n None = Ok rows /\ Z.of_nat (length rows) = n /\ Forall (fun c => Z.of_nat (length c) = L) rows /\
    forall i c k, 0 <= i -> nth_error rows (Z.to_nat i) = Some c -> 0 <= k < L -> nth_error c (Z.to_nat k) = nth_error d (Z.to_nat (L * i + k)).
Proof.
  intros L1 N0 LD. unfold gather.
  match goal with |- exists rows, ofold ?B _ _ = _ /\ _ => set (body := B) end.
  assert (Q : forall m, Z.of_nat m <= n -> exists rows, ofold body (zseq (Z.of_nat m)) [] = Ok rows /\ Z.of_nat (length rows) = Z.of_nat m /\ Forall (fun c => Z.of_nat (length c) = L) rows /\
    forall i c k, 0 <= i -> nth_error rows (Z.to_nat i) = Some c -> 0 <= k < L -> nth_error c (Z.to_nat k) = nth_error d (Z.to_nat (L * i + k))).
  { induction m as [|m IH]; intros M.
    - exists []. repeat split; [constructor|]. intros i c k _ E. destruct (Z.to_nat i); discriminate.
    - destruct IH as (rows & E & LR & F & N); [lia|]. destruct (row_read d (Z.of_nat m * L) L) as (row & ER & LW & NW); [nia|lia|nia|].
      exists (rows ++ [row]). split; [|split; [|split]].
      + replace (Z.of_nat (S m)) with (Z.of_nat m + 1) by lia. rewrite zseq_S by lia. rewrite ofold_app, E. cbn [obind ofold]. unfold body at 1. cbn [obind]. rewrite ER. reflexivity.
      + rewrite app_length. cbn [length]. lia.
      + apply Forall_app. split; [exact F|]. constructor; [exact LW|constructor].
      + intros i c k I EC K. destruct (Z_lt_le_dec i (Z.of_nat m)) as [LT|GE]; [rewrite nth_error_app1 in EC by lia; eapply N; eassumption|].
        rewrite nth_error_app2 in EC by lia. assert (i = Z.of_nat m).
        { assert (Z.to_nat i - length rows < length [row])%nat by (apply nth_error_Some; congruence). cbn [length] in *. lia. }
        subst i. replace (Z.to_nat (Z.of_nat m) - length rows)%nat with 0%nat in EC by lia. injection EC as <-. rewrite (NW k K). f_equal. lia. }
  specialize (Q (Z.to_nat n)). rewrite Z2Nat.id in Q by lia. apply Q. lia.
Qed.
