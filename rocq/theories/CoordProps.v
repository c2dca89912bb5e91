(** C26 and C27: coordinates and cells. *)
From Coq Require Import ZArith QArith Reals List Lia Lra.
From Flocq Require Import Core BinarySingleNaN.
From Verif Require Import Base RasterModel CoordModel CoordSpec CoordProofs FloatModel FloatProofs CoordFloatModel CoordFloatSpec CoordFloatProofs.
Import ListNotations.
Open Scope Z_scope.

(** C26, exact arithmetic. *)
Theorem C26_centre_round_trip g r c : (0 < g_cs g)%Q -> cell_of_grid g r c ->
  let xy := GetCoordinateByRowCol g r c in GetPositionByCoordinate g (fst xy) (snd xy) = (r, c).
Proof.
  intros S G xy. destruct (centre_ge g S r c G). apply by_coordinate; auto. apply centre_in_cell; auto.
Qed.

Theorem C26_centre_position {T} (r : raster T) i j : r_init r = true -> (0 < r_cs r)%Q -> header_known (geo_of r) ->
  cell_of_grid (geo_of r) i j ->
  let xy := GetCoordinateByRowCol (geo_of r) i j in GetPositionXY r (fst xy) (snd xy) = GetPosition r i j.
Proof. intros I S K G xy. apply position_xy; auto. apply centre_in_cell; auto. Qed.

(** C26, binary64. *)
Theorem C26_double_round_trip g r c : sane g -> 0 <= r < fg_rows g -> 0 <= c < fg_cols g ->
  let xy := fCoordinate g r c in fPositionByCoordinate g (fst xy) (snd xy) = Ok (r, c).
Proof.
  intros S R C xy. destruct (fcentre g r c S R C) as (W & G1 & G2). apply fposition; auto.
Qed.

Theorem C26_double_position g r c : sane g -> B2R (fg_xll g) <> (-9999)%R -> B2R (fg_yll g) <> (-9999)%R ->
  0 <= r < fg_rows g -> 0 <= c < fg_cols g ->
  let xy := fCoordinate g r c in fLocate g (fst xy) (snd xy) = Ok (Some (r, c)).
Proof.
  intros S N1 N2 R C xy. destruct (fcentre g r c S R C) as (W & _). apply flocate; auto.
Qed.

(** C27: each point strictly inside lies in exactly the cell that is found. *)
Theorem C27_position_of_point {T} (r : raster T) x y : r_init r = true -> (0 < r_cs r)%Q -> header_known (geo_of r) ->
  inside_extent (geo_of r) x y ->
  exists i j, cell_of_grid (geo_of r) i j /\ in_cell (geo_of r) i j x y /\ GetPositionXY r x y = GetPosition r i j.
Proof.
  intros I S K H. destruct (has_cell (geo_of r) x y S H) as (i & j & G & C). exists i, j.
  split; [exact G|]. split; [exact C|]. apply position_xy; auto.
Qed.

Theorem C27_cell_of_point g x y : (0 < g_cs g)%Q -> inside_extent g x y -> (g_xll g <= x)%Q -> (g_yll g <= y)%Q ->
  exists i j, cell_of_grid g i j /\ in_cell g i j x y /\ GetPositionByCoordinate g x y = (i, j).
Proof.
  intros S H X Y. destruct (has_cell g x y S H) as (i & j & G & C). exists i, j.
  split; [exact G|]. split; [exact C|]. apply by_coordinate; auto.
Qed.

(** Left of the first centres or below the last centres: rejected. *)
Theorem C27_strips_rejected g x y : (x < g_xll g)%Q \/ (y < g_yll g)%Q -> GetPositionByCoordinate g x y = (-1, -1).
Proof. apply strips. Qed.

Theorem C27_right_edge g y r : (0 < g_cs g)%Q -> 0 < g_cols g -> 0 <= r < g_rows g ->
  (g_yll g + (inject_Z (g_rows g - r - 1) - (1 # 2)) * g_cs g < y)%Q ->
  (y <= g_yll g + (inject_Z (g_rows g - r - 1) + (1 # 2)) * g_cs g)%Q -> (g_yll g <= y)%Q ->
  GetPositionByCoordinate g (x_max g) y = (r, g_cols g).
Proof. intros. apply right_edge; auto. Qed.

(** Binary64: points at least 1/256 of a cell away from the edges. *)
Theorem C27_double_position_of_point g r c x y : sane g -> B2R (fg_xll g) <> (-9999)%R -> B2R (fg_yll g) <> (-9999)%R ->
  well_inside g r c x y -> fLocate g x y = Ok (Some (r, c)).
Proof. intros. apply flocate; auto. Qed.

Theorem C27_double_cell_of_point g r c x y : sane g -> well_inside g r c x y ->
  (B2R (fg_xll g) <= B2R x)%R -> (B2R (fg_yll g) <= B2R y)%R -> fPositionByCoordinate g x y = Ok (r, c).
Proof. intros. apply fposition; auto. Qed.

(** The claim without restriction is false: a point of the lower left cell. *)
Theorem C27_every_point_refuted : exists g r c x y,
  (0 < g_cs g)%Q /\ cell_of_grid g r c /\ in_cell g r c x y /\ inside_extent g x y /\
  GetPositionByCoordinate g x y <> (r, c).
Proof.
  exists (mkGeo 2 3 10 20 4), 1, 0, (9 # 1), (21 # 1). vm_compute. repeat split; congruence.
Qed.

(** * Examples *)
Definition g0 := mkGeo 4 5 (100 # 3) (-7 # 1) (5 # 2).
Example g0_cell : (0 < g_cs g0)%Q /\ cell_of_grid g0 2 3 /\ inside_extent g0 (41 # 1) (-5 # 1) /\ header_known g0.
Proof. unfold cell_of_grid, inside_extent, header_known. cbn. repeat split; try lia; try reflexivity; left; vm_compute; congruence. Qed.
Example g0_trip : GetPositionByCoordinate g0 (41 # 1) (-5 # 1) = (2, 3).
Proof. reflexivity. Qed.
Example g0_edge : GetPositionByCoordinate g0 (x_max g0) (-5 # 1) = (2, 5).
Proof. reflexivity. Qed.

Definition fg0 := mkFgeo 4 5 (of_int 1000) (of_int (-7)) (of_int 30).
Example fg0_sane : sane fg0.
Proof.
  unfold sane, fg0. cbn [fg_rows fg_cols fg_xll fg_yll fg_cs].
  destruct (of_int_exact 1000 ltac:(lia)) as [F1 E1]. destruct (of_int_exact (-7) ltac:(lia)) as [F2 E2].
  destruct (of_int_exact 30 ltac:(lia)) as [F3 E3]. rewrite E1, E2, E3, F1, F2, F3.
  split; [reflexivity|]. split; [reflexivity|]. split; [reflexivity|].
  split; [split|].
  - apply Rle_trans with (bpow radix2 0); [apply bpow_le; lia|]. change (bpow radix2 0) with 1%R. lra.
  - apply Rle_trans with (bpow radix2 5); [change (bpow radix2 5) with 32%R; lra|apply bpow_le; lia].
  - rewrite <- !abs_IZR, <- !mult_IZR. unfold INT_MAX. split; [apply IZR_le; lia|]. split; [apply IZR_le; lia|]. lia.
Qed.
Example fg0_trip : fPositionByCoordinate fg0 (fst (fCoordinate fg0 2 3)) (snd (fCoordinate fg0 2 3)) = Ok (2, 3).
Proof. vm_compute. reflexivity. Qed.

(** Print Assumptions: the binary64 theorems use the axioms of Coq's reals. *)
Print Assumptions C26_centre_round_trip.
Print Assumptions C26_centre_position.
Print Assumptions C26_double_round_trip.
Print Assumptions C26_double_position.
Print Assumptions C27_position_of_point.
Print Assumptions C27_cell_of_point.
Print Assumptions C27_strips_rejected.
Print Assumptions C27_right_edge.
Print Assumptions C27_double_position_of_point.
Print Assumptions C27_double_cell_of_point.
Print Assumptions C27_every_point_refuted.
