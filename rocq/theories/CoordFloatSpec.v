(** Vocabulary for the coordinate properties in binary64. *)
From Coq Require Import ZArith Reals.
From Flocq Require Import Core BinarySingleNaN.
From Verif Require Import Base FloatModel CoordFloatModel.
Open Scope R_scope.

(** The magnitudes for which the results are exact. *)
Definition sane (g : fgeo) : Prop :=
  is_finite (fg_xll g) = true /\ is_finite (fg_yll g) = true /\ is_finite (fg_cs g) = true /\
  bpow radix2 (-900) <= B2R (fg_cs g) <= bpow radix2 900 /\
  Rabs (B2R (fg_xll g)) <= IZR (2 ^ 40) * B2R (fg_cs g) /\
  Rabs (B2R (fg_yll g)) <= IZR (2 ^ 40) * B2R (fg_cs g) /\
  (0 <= fg_rows g <= INT_MAX)%Z /\ (0 <= fg_cols g <= INT_MAX)%Z.

(** At least 1/256 of a cell away from the edges of cell (row, col). *)
Definition well_inside (g : fgeo) (row col : Z) (x y : f64) : Prop :=
  (0 <= row < fg_rows g)%Z /\ (0 <= col < fg_cols g)%Z /\
  is_finite x = true /\ is_finite y = true /\
  Rabs (B2R x - (B2R (fg_xll g) + B2R (fg_cs g) * IZR col)) <= (/ 2 - / 256) * B2R (fg_cs g) /\
  Rabs (B2R y - (B2R (fg_yll g) + B2R (fg_cs g) * IZR (fg_rows g - row - 1))) <= (/ 2 - / 256) * B2R (fg_cs g).

