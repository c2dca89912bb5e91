(** C152: one mask object used by several threads. *)
From Coq Require Import ZArith List Bool Lia Permutation.
From Verif Require Import Base RasterModel RasterSpec ListLib ParModel ParSpec ShareModel MaskShareModel MaskShareSpec MaskShareProofs MaskShareProofs2 MaskShareProofs3.
Import ListNotations.
Open Scope Z_scope.

(** ** C152. Threads masking rasters of their own by one mask that has its positions: no
    race, the mask stays as it is, and each learns its rows, columns and positions. *)
Theorem C152_share : forall (T D : Type) (feq : T -> T -> bool) n rows cols ps (m0 : mem T D), holds_positions m0 rows cols ps ->
  parallel_for n (fun _ => UseMask feq) m0 m0 (fun _ => [(rows, cols, ps)]).
Proof. intros T D feq. exact (mask_share feq). Qed.
Print Assumptions C152_share.

(** A mask that is a complete grid gets them from one use before the threads start: the
    valid cells by rows, in both forms of positions and with their values. *)
Theorem C152_first : forall (T D : Type) (feq : T -> T -> bool) rows cols nd (value : Z -> Z -> T) (m0 : mem T D), 0 <= rows -> 0 <= cols ->
  let ps := valid_cells feq nd value rows cols in holds_grid m0 nd value rows cols (Z.of_nat (length ps)) ->
  exists m1, parallel_for 1 (fun _ => UseMask feq) m0 m1 (fun _ => [(rows, cols, ps)]) /\ holds_positions m1 rows cols ps /\
    (forall i a b, aget ps i = Ok (a, b) -> m1 (A_posidx, i, 0) = Some (WI (a * cols + b)) /\ m1 (A_raster, i, 0) = Some (WT (value a b))).
Proof. intros T D feq rows cols nd value m0 HR HC ps H. exact (mask_first feq rows cols nd value m0 HR HC H). Qed.
Print Assumptions C152_first.

(** Not so when two threads are the first to use it: a race, and one of them can learn of
    as many valid cells as there are, all of them the first cell of the grid. *)
Theorem C152_first_refuted : forall (T D : Type) (feq : T -> T -> bool) rows cols nd (value : Z -> Z -> T) (m0 : mem T D), 0 <= rows -> 0 <= cols ->
  let ps := valid_cells feq nd value rows cols in holds_grid m0 nd value rows cols (Z.of_nat (length ps)) ->
  exists tr m (th0 th1 : thread T D learnt), exec m0 (start (fun _ => UseMask feq) [[0]; [1]]) tr m [th0; th1] /\ finished [th0; th1] /\ race tr /\
    snd th0 = [(rows, cols, ps)] /\ snd th1 = [(rows, cols, repeat (0, 0) (length ps))] /\
    (forall row col, 0 <= row < rows -> 0 <= col < cols -> (row, col) <> (0, 0) -> feq (value row col) nd = false -> snd th1 <> snd th0).
Proof.
  intros T D feq rows cols nd value m0 HR HC ps H. destruct (mask_race feq rows cols nd value m0 HR HC H) as (tr & m & p0 & p1 & X & F & RC & A & B).
  exists tr, m, p0, p1. do 5 (split; [assumption|]). intros row col R C N V E. rewrite A, B in E. injection E as E. fold ps in E.
  assert (I : In (row, col) ps) by (apply filter_In; split; [apply grid_cells_in; auto|cbn [fst snd]; rewrite V; reflexivity]).
  rewrite <- E in I. apply repeat_spec in I. exact (N I).
Qed.
Print Assumptions C152_first_refuted.

(** A mask of two rows and two columns without its first cell. *)
Definition mask_value (i j : Z) : Z := if (i =? 0) && (j =? 0) then -9999 else 1.
Definition mask_memory : mem Z Z := fun l =>
  match l with
  | (A_field, k, 0) => nth_error [WI 0; WI 1; WI 0; WI 2; WI 2; WI 1; WI 4; WI 0; WI 0; WI 0; WT (-9999); WI 0] (Z.to_nat k)
  | (A_raster, i, 0) => if (0 <=? i) && (i <? 4) then Some (WT (mask_value (i / 2) (i mod 2))) else None
  | (A_pos, i, j) => if (0 <=? i) && (i <? 3) && (0 <=? j) && (j <? 2) then Some (WI 77) else None
  | (A_posidx, i, 0) => if (0 <=? i) && (i <? 3) then Some (WI 77) else None
  | _ => None
  end.
Lemma mask_memory_holds : holds_grid mask_memory (-9999) mask_value 2 2 3.
Proof.
  unfold holds_grid. do 7 (split; [reflexivity|]). do 2 (split; [discriminate|]). split; [|split].
  - intros i j I J. assert (A : i = 0 \/ i = 1) by lia. assert (B : j = 0 \/ j = 1) by lia. destruct A as [-> | ->], B as [-> | ->]; reflexivity.
  - intros i j I J. assert (A : i = 0 \/ i = 1 \/ i = 2) by lia. assert (B : j = 0 \/ j = 1) by lia. destruct A as [-> |[-> | ->]], B as [-> | ->]; discriminate.
  - intros i I. assert (A : i = 0 \/ i = 1 \/ i = 2) by lia. destruct A as [-> |[-> | ->]]; discriminate.
Qed.
Example C152_ex : valid_cells Z.eqb (-9999) mask_value 2 2 = [(0, 1); (1, 0); (1, 1)] /\
  (exists m1, parallel_for 1 (fun _ => UseMask Z.eqb) mask_memory m1 (fun _ => [(2, 2, [(0, 1); (1, 0); (1, 1)])]) /\
     forall n, parallel_for n (fun _ => UseMask Z.eqb) m1 m1 (fun _ => [(2, 2, [(0, 1); (1, 0); (1, 1)])])) /\
  (exists tr m th0 th1, exec mask_memory (start (fun _ => UseMask Z.eqb) [[0]; [1]]) tr m [th0; th1] /\ race tr /\ snd th1 = [(2, 2, [(0, 0); (0, 0); (0, 0)])]).
Proof.
  split; [reflexivity|]. split.
  - destruct (C152_first Z Z Z.eqb 2 2 (-9999) mask_value mask_memory ltac:(lia) ltac:(lia) mask_memory_holds) as (m1 & P & H & _).
    exists m1. split; [exact P|]. intros n. apply C152_share. exact H.
  - destruct (C152_first_refuted Z Z Z.eqb 2 2 (-9999) mask_value mask_memory ltac:(lia) ltac:(lia) mask_memory_holds) as (tr & m & a & b & X & _ & RC & _ & E & _). eauto 8.
Qed.
