(** Property theorems about src/utils_math.h (C14-C16). *)
From Coq Require Import ZArith QArith List Bool Lia Permutation.
From Coq.Floats Require Import SpecFloat.
From Verif Require Import Base MathModel MathSpec MathProofs.
Import ListNotations.
Open Scope Z_scope.

(** ** C14 *)
Theorem C14_max : forall (T : Type) (ltb : T -> T -> bool) (a : list T), strict_weak ltb -> a <> [] ->
  exists m, MaxInArray ltb a (Z.of_nat (length a)) = Ok m /\ In m a /\ forall x, In x a -> ltb m x = false.
Proof. intros T ltb. exact (Max_ok ltb). Qed.
Print Assumptions C14_max.

Theorem C14_min : forall (T : Type) (ltb : T -> T -> bool) (a : list T), strict_weak ltb -> a <> [] ->
  exists m, MinInArray ltb a (Z.of_nat (length a)) = Ok m /\ In m a /\ forall x, In x a -> ltb x m = false.
Proof. intros T ltb. exact (Min_ok ltb). Qed.
Print Assumptions C14_min.

(** With a NaN the result does not bound the other elements. *)
Theorem C14_nan_refuted : exists a m x, MaxInArray SFltb a (Z.of_nat (length a)) = Ok m /\ In x a /\ x <> m /\ SFleb x m = false.
Proof.
  exists [S754_nan; S754_finite false 1 0], S754_nan, (S754_finite false 1 0).
  split; [reflexivity|]. split; [right; left; auto|]. split; [discriminate|reflexivity].
Qed.
Print Assumptions C14_nan_refuted.

Example C14_ex : strict_weak Z.ltb /\ MaxInArray Z.ltb [3; 9; -2; 9] 4 = Ok 9 /\ MinInArray Z.ltb [3; 9; -2] 3 = Ok (-2).
Proof. split; [split; intros; lia|]. repeat split. Qed.

(** ** C15 *)
Theorem C15_sum : forall (T : Type) (op : T -> T -> T) (zero : T) (data : list T) (t : team),
  comm_monoid op zero -> covers t (length data) ->
  Sum (fun a b => Ok (op a b)) zero data t = Ok (fold_right op zero data).
Proof. exact @Sum_ok. Qed.
Print Assumptions C15_sum.

Theorem C15_sum_selected : forall (T : Type) (op : T -> T -> T) (zero : T) (idx : list Z) (data vals : list T) (t : team),
  comm_monoid op zero -> covers t (length idx) -> Forall2 (fun j v => aget data j = Ok v) idx vals ->
  Sum_idx (fun a b => Ok (op a b)) zero idx data t = Ok (fold_right op zero vals).
Proof. exact @Sum_idx_ok. Qed.
Print Assumptions C15_sum_selected.

(** [int] elements: no overflow in any schedule when the magnitudes fit. *)
Theorem C15_sum_int : forall (data : list Z) (t : team),
  covers t (length data) -> zsum (map Z.abs data) <= INT_MAX ->
  Sum int_add 0 data t = Ok (zsum data).
Proof. exact Sum_int_ok. Qed.
Print Assumptions C15_sum_int.

(** The sum fitting is not enough: one schedule overflows, another does not. *)
Theorem C15_sum_int_refuted : exists (data : list Z) (t1 t2 : team),
  covers t1 (length data) /\ covers t2 (length data) /\ in_int (zsum data) /\
  Sum int_add 0 data t1 = UB /\ Sum int_add 0 data t2 = Ok (zsum data).
Proof.
  exists [INT_MAX; 1; -1], (Thread [0; 1; 2]%nat), (Combine (Thread [0]%nat) (Thread [1; 2]%nat)).
  split; [apply Permutation_refl|]. split; [apply Permutation_refl|]. split; [vm_compute; split; discriminate|].
  split; reflexivity.
Qed.
Print Assumptions C15_sum_int_refuted.

(** [float] elements: the result depends on the schedule. *)
Theorem C15_sum_float_refuted : exists (data : list spec_float) (t1 t2 : team),
  covers t1 (length data) /\ covers t2 (length data) /\
  Sum (fun a b => Ok (SFadd 24 128 a b)) (S754_zero false) data t1 <>
  Sum (fun a b => Ok (SFadd 24 128 a b)) (S754_zero false) data t2.
Proof.
  exists [S754_finite false 8388608 1; S754_finite false 8388608 (-23); S754_finite false 8388608 (-23)],
    (Thread [0; 1; 2]%nat), (Combine (Thread [0]%nat) (Thread [1; 2]%nat)).
  split; [apply Permutation_refl|]. split; [apply Permutation_refl|]. vm_compute. discriminate.
Qed.
Print Assumptions C15_sum_float_refuted.

(** Exact integers and [unsigned int] arithmetic are such monoids. *)
Example C15_ex : comm_monoid Z.add 0 /\
  covers (Combine (Thread [2; 0]%nat) (Combine (Thread []) (Thread [1]%nat))) 3 /\
  Sum zadd 0 [5; 7; -1] (Combine (Thread [2; 0]%nat) (Combine (Thread []) (Thread [1]%nat))) = Ok 11 /\
  Sum uint_add 0 [4294967295; 2; 3] (Combine (Thread [2; 0]%nat) (Thread [1]%nat)) = Ok 4 /\
  Sum_idx zadd 0 [2; 0; 2] [5; 7; -1] (Combine (Thread [2]%nat) (Thread [0; 1]%nat)) = Ok 3.
Proof.
  split; [repeat split; intros; lia|]. split; [|repeat split].
  unfold covers. cbn. apply Permutation_trans with [0; 2; 1]%nat; repeat constructor.
Qed.

(** ** C16 *)
Theorem C16_statistics : forall (feq : Q -> Q -> bool) (sqrt : Q -> Q) (exclude : Q) (vals : list Q) (t : team),
  covers t (length vals) ->
  exists st, BasicStatistics feq sqrt vals (Z.of_nat (length vals)) exclude t = Ok st /\
  (valid feq exclude vals <> [] -> Forall in_float_range (valid feq exclude vals) ->
     stats_of sqrt (valid feq exclude vals) st) /\
  (valid feq exclude vals = [] ->
     st = mkStats 0 None (- FLT_MAX) FLT_MAX None (- FLT_MAX - FLT_MAX)%Q).
Proof. exact BasicStatistics_ok. Qed.
Print Assumptions C16_statistics.

Theorem C16_statistics_layers : forall (feq : Q -> Q -> bool) (sqrt : Q -> Q) (exclude : Q)
    (values : list (list Q)) (L : nat) (t : Z -> team),
  Forall (fun c => length c = L) values ->
  (forall j, 0 <= j < Z.of_nat L -> covers (t j) (length values)) ->
  exists sts, BasicStatistics2D feq sqrt values (Z.of_nat (length values)) (Z.of_nat L) exclude t = Ok sts /\
  length sts = L /\
  forall j st, nth_error sts j = Some st ->
  let vals := valid feq exclude (column values j) in
  (vals <> [] -> Forall in_float_range vals -> stats_of sqrt vals st) /\
  (vals = [] -> st = mkStats 0 None (- FLT_MAX) FLT_MAX None (- FLT_MAX - FLT_MAX)%Q).
Proof. exact BasicStatistics2D_ok. Qed.
Print Assumptions C16_statistics_layers.

(** Doubles beyond the float range: the maximum is not one of the values. *)
Theorem C16_out_of_range_refuted : exists vals t st,
  covers t (length vals) /\ vals <> [] /\
  BasicStatistics Qeq_bool (fun x => x) vals (Z.of_nat (length vals)) (-9999 # 1) t = Ok st /\
  forall x, In x vals -> ~ (x == s_max st)%Q.
Proof.
  exists [(- FLT_MAX - 1)%Q], (Thread [0]%nat). eexists. split; [apply Permutation_refl|]. split; [discriminate|].
  split; [vm_compute; reflexivity|]. intros x [<-|[]]. vm_compute. discriminate.
Qed.
Print Assumptions C16_out_of_range_refuted.

Example C16_ex : exists st, BasicStatistics Qeq_bool (fun x => x) [1#1; -9999#1; 3#1] 3 (-9999 # 1) (Thread [2; 0; 1]%nat) = Ok st /\
  s_num st = 2 /\ (s_max st == 3)%Q /\ (s_min st == 1)%Q /\
  match s_mean st, s_std st with Some m, Some v => (m == 2)%Q /\ (v == 1)%Q | _, _ => False end.
Proof. eexists. split; [vm_compute; reflexivity|]. vm_compute. auto. Qed.
