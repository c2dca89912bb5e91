(** Layers read from files: cell centres on the right edge of another layer. *)
From Coq Require Import ZArith Reals Lia Lra Ascii String List Bool Permutation Sorted ZifyBool.
From Flocq Require Import Core BinarySingleNaN.
From Verif Require Import Base ListLib StrModel MapModel MapProofs BasicModel FloatModel FloatProofs TypeModel CoordFloatModel CoordFloatSpec CoordFloatProofs
  FsModel RasterModel RasterSpec RasterProofs RasterProofs2 CopyModel AscModel AscSpec AscProofs AscProofs2 CellModel GridfsModel GdalModel GdalProofs3 LayersModel LayersSpec LayersProofs LayersProofs2 LayersProofs3 LayersProofs4 LayersProofs5.
Import ListNotations.
Open Scope Z_scope.
Open Scope outcome_scope.

Lemma grid_div e c x y m a b : -1074 <= e <= 900 -> Z.abs c <= 2 ^ 53 -> grid m a x -> grid m b y -> b <> 0 ->
  (IZR a / IZR b = IZR c * bpow radix2 e)%R -> grid e c (fdiv x y).
Proof.
  intros E M [FX VX] [FY VY] NB Q. assert (PB : (bpow radix2 m <> 0)%R) by (apply Rgt_not_eq, bpow_gt_0). assert (IB : (IZR b <> 0)%R) by (apply not_0_IZR; exact NB).
  assert (NZ : (B2R y <> 0)%R) by (rewrite VY; apply Rmult_integral_contrapositive; split; assumption).
  apply (exact_op e c (fdiv x y) (B2R x / B2R y)); auto.
  - pose proof (Bdiv_correct 53 1024 prec_gt_0_53 prec_lt_53 mode_NE x y NZ) as C. change (round radix2 (SpecFloat.fexp 53 1024) (round_mode mode_NE)) with rnd in C.
    destruct (Rlt_bool _ _); [|exact I]. destruct C as (C1 & C2 & _). rewrite FX in C2. split; assumption.
  - rewrite VX, VY, <- Q. field. split; assumption.
Qed.

Lemma grid_flt e a b x y : grid e a x -> grid e b y -> flt x y = (a <? b).
Proof.
  intros [FX VX] [FY VY]. rewrite flt_R, VX, VY by assumption. pose proof (bpow_gt_0 radix2 e) as P. destruct (a <? b) eqn:L.
  - apply Rlt_bool_true. apply Rmult_lt_compat_r; [exact P|]. apply IZR_lt. lia.
  - apply Rlt_bool_false. apply Rmult_le_compat_r; [lra|]. apply IZR_le. lia.
Qed.

Lemma grid_mul0 a b x y : Z.abs (a * b) <= 2 ^ 53 -> grid 0 a x -> grid 0 b y -> grid 0 (a * b) (fmul x y).
Proof. intros M X Y. apply (grid_mul 0 a 0 b 0); auto; [lia|]. rewrite mult_IZR. cbn [bpow]. ring. Qed.

Lemma grid_trunc e m x k : e = 0 \/ e = -1 -> grid e m x -> 0 <= k <= INT_MAX -> (e = 0 -> m = k) -> (e = -1 -> m = 2 * k + 1) -> f_int x = Ok k.
Proof.
  intros E [F V] K E0 E1. apply f_int_between; auto; rewrite V; destruct E as [-> | ->].
  - rewrite E0 by reflexivity. cbn. lra.
  - rewrite E1 by reflexivity. change (bpow radix2 (-1)) with (/ 2)%R. rewrite plus_IZR, mult_IZR. lra.
  - rewrite E0 by reflexivity. rewrite plus_IZR. cbn. lra.
  - rewrite E1 by reflexivity. change (bpow radix2 (-1)) with (/ 2)%R. rewrite !plus_IZR, mult_IZR. lra.
Qed.

(** Grids with an even whole cell size; the second one lies half a cell further left. *)
Section Border.
Variables rows cols a b c : Z.
Hypotheses (G : grid_size rows cols) (A : Z.abs a <= 2 ^ 40) (B : Z.abs b <= 2 ^ 40) (C : 0 < c <= 2 ^ 20).
Definition even_grid (x : Z) : fgeo := mkFgeo rows cols (of_int x) (of_int b) (of_int (2 * c)).

Lemma even_bounds : 0 < rows <= INT_MAX /\ 0 < cols <= INT_MAX.
Proof using G. clear - G. destruct G as (R & K & M). unfold INT_MAX in *. nia. Qed.

Lemma even_sane x : Z.abs x <= 2 ^ 41 -> sane (even_grid x).
Proof using All.
  intros X. destruct even_bounds as [R K]. unfold sane, even_grid. cbn [fg_xll fg_yll fg_cs fg_rows fg_cols].
  destruct (of_int_exact x ltac:(lia)) as [F1 V1]. destruct (of_int_exact b ltac:(lia)) as [F2 V2]. destruct (of_int_exact (2 * c) ltac:(lia)) as [F3 V3].
  rewrite V1, V2, V3, <- !abs_IZR, <- !mult_IZR. split; [exact F1|]. split; [exact F2|]. split; [exact F3|]. split; [split|split; [|split; [|lia]]].
  - apply Rle_trans with (bpow radix2 0); [apply bpow_le; lia|]. change (bpow radix2 0) with 1%R. apply IZR_le. lia.
  - apply Rle_trans with (bpow radix2 40); [|apply bpow_le; lia]. change (bpow radix2 40) with (IZR (2 ^ 40)). apply IZR_le. lia.
  - apply IZR_le. lia.
  - apply IZR_le. lia.
Qed.

Lemma half_grid : grid 0 c (fdiv (of_int (2 * c)) (of_int 2)).
Proof using C.
  clear - C. apply (grid_div 0 c _ _ 0 (2 * c) 2); try lia; try (apply grid_int; lia). rewrite mult_IZR. cbn [bpow]. field.
Qed.

(** The centre of a cell of the first grid, in the second. *)
Lemma border_position i j : 0 <= i < rows -> 0 <= j < cols ->
  let xy := fCoordinate (even_grid a) i j in fPositionByCoordinate (even_grid (a - c)) (fst xy) (snd xy) = Ok (i, j + 1).
Proof using All.
  intros I J. destruct even_bounds as [R K]. unfold INT_MAX in R, K. cbv zeta. unfold fCoordinate, even_grid. cbn [fg_xll fg_yll fg_cs fg_rows fst snd].
  assert (GX : grid 0 (a + j * (2 * c)) (fadd (of_int a) (fmul (of_int j) (of_int (2 * c))))).
  { apply grid_add; [lia|nia|apply grid_int; lia|]. apply grid_mul0; try apply grid_int; nia. }
  assert (GY : grid 0 (b + (rows - i - 1) * (2 * c)) (fadd (of_int b) (fmul (of_int (rows - i - 1)) (of_int (2 * c))))).
  { apply grid_add; [lia|nia|apply grid_int; lia|]. apply grid_mul0; try apply grid_int; nia. }
  set (x := fadd _ _) in GX. set (y := fadd _ _) in GY. change (fadd (of_int a) (fmul (of_int j) (of_int (2 * c)))) with x. change (fadd (of_int b) (fmul (of_int (rows - i - 1)) (of_int (2 * c)))) with y.
  unfold fPositionByCoordinate, fx_max, fy_max, fx_min, fy_min. cbn [fg_xll fg_yll fg_cs fg_rows fg_cols]. pose proof half_grid as HG.
  assert (XM : grid 0 (a - c - c) (fsub (of_int (a - c)) (fdiv (of_int (2 * c)) (of_int 2)))) by (apply grid_sub; [lia|lia|apply grid_int; lia|exact HG]).
  assert (YM : grid 0 (b - c) (fsub (of_int b) (fdiv (of_int (2 * c)) (of_int 2)))) by (apply grid_sub; [lia|lia|apply grid_int; lia|exact HG]).
  set (xm := fsub (of_int (a - c)) _) in *. set (ym := fsub (of_int b) _) in *.
  assert (XX : grid 0 (a - c - c + 2 * c * cols) (fadd xm (fmul (of_int (2 * c)) (of_int cols)))).
  { apply grid_add; [lia|nia|exact XM|]. apply grid_mul0; try apply grid_int; nia. }
  assert (YX : grid 0 (b - c + 2 * c * rows) (fadd ym (fmul (of_int (2 * c)) (of_int rows)))).
  { apply grid_add; [lia|nia|exact YM|]. apply grid_mul0; try apply grid_int; nia. }
  set (xx := fadd xm _) in *. set (yx := fadd ym _) in *.
  rewrite (grid_flt _ _ _ _ _ XX GX), (grid_flt _ _ _ _ _ YX GY), (grid_flt 0 _ (a - c) x (of_int (a - c)) GX ltac:(apply grid_int; lia)), (grid_flt 0 _ b y (of_int b) GY ltac:(apply grid_int; lia)).
  replace (a - c - c + 2 * c * cols <? a + j * (2 * c)) with false by nia. replace (a + j * (2 * c) <? a - c) with false by nia.
  replace (b - c + 2 * c * rows <? b + (rows - i - 1) * (2 * c)) with false by nia. replace (b + (rows - i - 1) * (2 * c) <? b) with false by nia. cbn [orb].
  assert (D1 : grid 0 (c * (2 * i + 1)) (fsub yx y)).
  { replace (c * (2 * i + 1)) with (b - c + 2 * c * rows - (b + (rows - i - 1) * (2 * c))) by ring. apply grid_sub; auto; [lia|nia]. }
  assert (D2 : grid 0 (2 * c * (j + 1)) (fsub x xm)).
  { replace (2 * c * (j + 1)) with (a + j * (2 * c) - (a - c - c)) by ring. apply grid_sub; auto; [lia|nia]. }
  assert (CN : (IZR c <> 0)%R) by (apply not_0_IZR; lia).
  assert (Q1 : grid (-1) (2 * i + 1) (fdiv (fsub yx y) (of_int (2 * c)))).
  { apply (grid_div (-1) (2 * i + 1) _ _ 0 (c * (2 * i + 1)) (2 * c)); try lia; [exact D1|apply grid_int; lia|]. change (bpow radix2 (-1)) with (/ 2)%R. rewrite !mult_IZR. field. exact CN. }
  assert (Q2 : grid 0 (j + 1) (fdiv (fsub x xm) (of_int (2 * c)))).
  { apply (grid_div 0 (j + 1) _ _ 0 (2 * c * (j + 1)) (2 * c)); try lia; [exact D2|apply grid_int; lia|]. rewrite !mult_IZR. cbn [bpow]. field. exact CN. }
  rewrite (grid_trunc (-1) _ _ i (or_intror eq_refl) Q1) by (unfold INT_MAX; lia). cbn [obind].
  rewrite (grid_trunc 0 _ _ (j + 1) (or_introl eq_refl) Q2) by (unfold INT_MAX; lia). reflexivity.
Qed.
End Border.
