(** C156: the arrays a raster hands out. *)
From Coq Require Import ZArith QArith List Bool Lia Sorted.
From Verif Require Import Base RasterModel RasterSpec ListLib RasterProofs AscModel GdalProofs2 ShareProofs4 LengthModel LengthSpec.
Import ListNotations.
Open Scope Z_scope.

Section P.
Context {T : Type}.
Implicit Types r : raster T.

Lemma shape_cells r : full_grid r \/ (exists ix, RasterSpec.compact r ix) -> 0 < r_cols r /\ 1 <= r_nlyrs r /\ 0 < r_ncells r /\ storage r (r_ncells r).
Proof.
  intros [(R & C & L & N & S & _)|(ix & R & C & L & N & _ & S & _)]; repeat split; auto; try nia. rewrite N. exact S.
Qed.
Lemma position_value r row col lyr k : full_grid r \/ (exists ix, RasterSpec.compact r ix) -> inside r row col -> layer_ok r lyr -> GetPosition r row col = Ok k -> 0 <= k ->
  GetValue r row col lyr = read_cell r k lyr.
Proof.
  intros SH I L E K. destruct SH as [F|(ix & C)].
  - rewrite (GetPosition_full r row col F I) in E. injection E as <-. apply GetValue_full; auto.
  - destruct (GetValue_compact r ix row col lyr C I L) as [(m & E' & _ & _ & G)|(E' & N & _)]; [|assert (k = -1) by congruence; lia].
    assert (m = k) by congruence. subst m. exact G.
Qed.
Lemma storage_handed r k lyr : storage r (r_ncells r) -> 0 <= k < r_ncells r -> layer_ok r lyr -> exists v, read_cell r k lyr = Ok v /\ handed r k lyr v.
Proof.
  intros S K [L1 L2]. unfold storage in S. unfold read_cell, handed, GetRasterData, Get2DRasterData. destruct (r_is2d r) eqn:D.
  - destruct S as (d & -> & LD & FD). destruct (nth_error d (Z.to_nat k)) as [c|] eqn:E; [|apply nth_error_None in E; lia].
    pose proof (proj1 (Forall_forall _ _) FD c (nth_error_In _ _ E)) as LC. cbv beta in LC. destruct (nth_error c (Z.to_nat (lyr - 1))) as [v|] eqn:E2; [|apply nth_error_None in E2; lia].
    exists v. split; [cbn [deref obind]; rewrite (aget_ok _ _ _ (proj1 K) E); cbn [obind]; apply aget_ok; [lia|exact E2]|]. right. exists (r_ncells r), (r_nlyrs r), d, c. auto.
  - destruct S as (L & d & -> & LD). destruct (nth_error d (Z.to_nat k)) as [v|] eqn:E; [|apply nth_error_None in E; lia].
    exists v. split; [cbn [deref obind]; apply aget_ok; [lia|exact E]|]. left. exists (r_ncells r), d. repeat split; auto; lia.
Qed.
Lemma storage_reported r : storage r (r_ncells r) -> reported r (r_ncells r).
Proof.
  unfold storage, reported, GetRasterData, Get2DRasterData. destruct (r_is2d r).
  - intros (d & -> & _). right. exists (r_nlyrs r), d. reflexivity.
  - intros (_ & d & -> & _). left. exists d. reflexivity.
Qed.
Lemma reported_cells r n : reported r n -> n = r_ncells r.
Proof.
  unfold reported, GetRasterData, Get2DRasterData. intros [(d & E)|(l & d & E)].
  - destruct (r_data r); [|discriminate E]. destruct (negb (r_is2d r)); [|discriminate E]. congruence.
  - destruct (r_data2d r); [|discriminate E]. destruct (r_is2d r); [|discriminate E]. congruence.
Qed.
Lemma concat_length (l : Z) (d : list (list T)) : Forall (fun c => Z.of_nat (length c) = l) d -> Z.of_nat (length (concat d)) = Z.of_nat (length d) * l.
Proof. induction 1 as [|c d H _ IH]; [reflexivity|]. cbn [concat length]. rewrite app_length. lia. Qed.
Lemma all_values_length r : storage r (r_ncells r) -> Z.of_nat (length (all_values r)) = r_ncells r * r_nlyrs r.
Proof.
  intros S. unfold storage in S. unfold all_values, GetRasterData, Get2DRasterData. destruct (r_is2d r) eqn:D.
  - destruct S as (d & -> & LD & FD). cbn [negb]. destruct (r_data r); rewrite (concat_length _ _ FD); lia.
  - destruct S as (L & d & -> & LD). cbn [negb]. lia.
Qed.
End P.

(** ** C156. In the arrays a raster hands out, the values of a stored cell are at the index of
    its position, and every index is the position of one stored cell. *)
Theorem C156_arrays : forall (T : Type) (r : raster T), full_grid r \/ (exists ix, RasterSpec.compact r ix) ->
  (forall row col lyr, stored r row col -> layer_ok r lyr ->
     exists k v, GetPosition r row col = Ok k /\ handed r k lyr v /\ GetValue r row col lyr = Ok v) /\
  exists n, reported r n /\ (forall n', reported r n' -> n' = n) /\
    (forall k, 0 <= k < n -> exists row col, stored r row col /\ GetPosition r row col = Ok k).
Proof.
  intros T r SH. destruct (shape_cells r SH) as (C0 & L0 & N0 & S). split; [|exists (r_ncells r); split; [exact (storage_reported r S)|split; [exact (reported_cells r)|]]].
  - intros row col lyr ST L. destruct (stored_position r row col SH ST) as (k & E & K & _). destruct (storage_handed r k lyr S K L) as (v & RC & H).
    exists k, v. split; [exact E|]. split; [exact H|]. rewrite (position_value r row col lyr k SH (proj1 ST) L E (proj1 K)). exact RC.
  - intros k K. destruct SH as [F|(ix & C)].
    + pose proof F as (R & _ & _ & N & _). assert (I : inside r (k / r_cols r) (k mod r_cols r)) by (split; [split; [apply Z.div_pos; lia|apply Z.div_lt_upper_bound; nia]|apply Z.mod_pos_bound; lia]).
      exists (k / r_cols r), (k mod r_cols r). split; [split; auto|]. rewrite (GetPosition_full r _ _ F I). f_equal. pose proof (Z.div_mod k (r_cols r)). lia.
    + pose proof C as (R & _ & _ & _ & N & _ & _ & _ & _ & SO & FA). destruct (nth_error ix (Z.to_nat k)) as [q|] eqn:E; [|apply nth_error_None in E; lia].
      pose proof (proj1 (Forall_forall _ _) FA q (nth_error_In _ _ E)) as Q. cbv beta in Q.
      assert (I : inside r (q / r_cols r) (q mod r_cols r)) by (split; [split; [apply Z.div_pos; lia|apply Z.div_lt_upper_bound; nia]|apply Z.mod_pos_bound; lia]).
      assert (QE : q / r_cols r * r_cols r + q mod r_cols r = q) by (pose proof (Z.div_mod q (r_cols r)); lia).
      exists (q / r_cols r), (q mod r_cols r). split; [split; [exact I|]; right; exists ix; split; [exact C|]; rewrite QE; exact (nth_error_In _ _ E)|].
      destruct (GetPosition_compact r ix _ _ C I) as [(m & EM & B & NM)|[_ X]]; rewrite QE in *; [|elim X; exact (nth_error_In _ _ E)].
      rewrite EM. f_equal. assert (Z.to_nat m = Z.to_nat k); [|lia]. apply (proj1 (NoDup_nth_error ix) (sorted_nodup _ SO)); [apply nth_error_Some; congruence|congruence].
Qed.
Print Assumptions C156_arrays.

(** GetDataLength is the number of values in the arrays, if that is an int; else undefined. *)
Theorem C156_length : forall (T : Type) (r : raster T), full_grid r \/ (exists ix, RasterSpec.compact r ix) ->
  GetDataLength r = if Z.of_nat (length (all_values r)) <=? 2147483647 then Ok (Z.of_nat (length (all_values r))) else UB.
Proof.
  intros T r SH. destruct (shape_cells r SH) as (C0 & L0 & N0 & S). rewrite (all_values_length r S). unfold GetDataLength, imul, in_intb. replace ((r_ncells r <? 0) || (r_nlyrs r <? 0)) with false by lia.
  destruct (Z.leb_spec (r_ncells r * r_nlyrs r) 2147483647) as [B|B].
  - match goal with |- (if ?b then _ else _) = _ => replace b with true; [reflexivity|] end. symmetry. apply andb_true_iff. split; apply Z.leb_le; unfold INT_MIN, INT_MAX; nia.
  - match goal with |- (if ?b then _ else _) = _ => replace b with false; [reflexivity|] end. symmetry. apply andb_false_iff. right. apply Z.leb_gt. unfold INT_MAX. lia.
Qed.
Print Assumptions C156_length.

(** Two layers of three cells. *)
Definition len_r : raster Z := FromArray2D (Some [[1; 10]; [2; 20]; [3; 30]]) 3 1 2 (-9999) (-9999) 1 0 0.
Example C156_ex : full_grid len_r /\ all_values len_r = [1; 10; 2; 20; 3; 30] /\ GetDataLength len_r = Ok 6 /\ GetPosition len_r 0 2 = Ok 2 /\ GetValue len_r 0 2 2 = Ok 30 /\ handed len_r 2 2 30.
Proof.
  split; [repeat split; try reflexivity; try (cbn; lia); exists [[1; 10]; [2; 20]; [3; 30]]; repeat split; repeat constructor|].
  split; [reflexivity|]. split; [reflexivity|]. split; [reflexivity|]. split; [reflexivity|].
  right. exists 3, 2, [[1; 10]; [2; 20]; [3; 30]], [3; 30]. repeat split; cbn; lia.
Qed.
