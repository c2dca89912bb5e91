(** Coordinates and cells (src/data_raster.hpp) in IEEE binary64, round to
    nearest even, operation by operation as written (no fused multiply-add).
    Proof-free. *)
From Coq Require Import ZArith Bool List.
From Flocq Require Import BinarySingleNaN.
From Verif Require Import Base RasterModel FloatModel TypeModel.
Open Scope Z_scope.
Open Scope outcome_scope.

(** An operator on doubles, as used in data_raster.hpp:3774-3799. *)
Definition fadd (a b : f64) : f64 := @Bplus 53 1024 prec_gt_0_53 prec_lt_53 mode_NE a b.
(** An operator on doubles, as used in data_raster.hpp:3774-3799. *)
Definition fmul (a b : f64) : f64 := @Bmult 53 1024 prec_gt_0_53 prec_lt_53 mode_NE a b.
(** An operator on doubles, as used in data_raster.hpp:3774-3799. *)
Definition fdiv (a b : f64) : f64 := @Bdiv 53 1024 prec_gt_0_53 prec_lt_53 mode_NE a b.
(** An operator on doubles, as used in data_raster.hpp:3774-3799. *)
Definition flt (a b : f64) : bool := Bltb a b.

(** The header entries read at data_raster.hpp:3784-3789. *)
Record fgeo := mkFgeo { fg_rows : Z; fg_cols : Z; fg_xll : f64; fg_yll : f64; fg_cs : f64 }.

(** data_raster.hpp:3774-3777 GetCoordinateByRowCol. *)
Definition fCoordinate (g : fgeo) (row col : Z) : f64 * f64 :=
  (fadd (fg_xll g) (fmul (of_int col) (fg_cs g)),
   fadd (fg_yll g) (fmul (of_int (fg_rows g - row - 1)) (fg_cs g))).

(** data_raster.hpp:3790-3794. *)
Definition fx_min (g : fgeo) : f64 := fsub (fg_xll g) (fdiv (fg_cs g) (of_int 2)).
(** data_raster.hpp:3790-3794. *)
Definition fx_max (g : fgeo) : f64 := fadd (fx_min g) (fmul (fg_cs g) (of_int (fg_cols g))).
(** data_raster.hpp:3790-3794. *)
Definition fy_min (g : fgeo) : f64 := fsub (fg_yll g) (fdiv (fg_cs g) (of_int 2)).
(** data_raster.hpp:3790-3794. *)
Definition fy_max (g : fgeo) : f64 := fadd (fy_min g) (fmul (fg_cs g) (of_int (fg_rows g))).

(** CVT_INT. basic.h:325. *)
Definition f_int (x : f64) : outcome Z := cast_int INT_MIN INT_MAX x.

(** data_raster.hpp:3780-3799 GetPositionByCoordinate. *)
Definition fPositionByCoordinate (g : fgeo) (x y : f64) : outcome (Z * Z) :=
  if (flt (fx_max g) x || flt x (fg_xll g)) || (flt (fy_max g) y || flt y (fg_yll g)) then Ok (-1, -1)
  else let* row := f_int (fdiv (fsub (fy_max g) y) (fg_cs g)) in
       let* col := f_int (fdiv (fsub x (fx_min g)) (fg_cs g)) in
       Ok (row, col).

(** data_raster.hpp:2579-2611, up to the call of GetPosition(row, col): [None]
    when -2 is returned. *)
Definition fLocate (g : fgeo) (x y : f64) : outcome (option (Z * Z)) :=
  if FloatEqual (fg_xll g) (of_int (-9999)) || FloatEqual (fg_yll g) (of_int (-9999))
     || FloatEqual (fg_cs g) (of_int (-9999)) || (fg_rows g <? 0) || (fg_cols g <? 0) then Ok None
  else if flt (fx_max g) x || flt x (fx_min g) then Ok None
  else if flt (fy_max g) y || flt y (fy_min g) then Ok None
  else let* row := f_int (fdiv (fsub (fy_max g) y) (fg_cs g)) in
       let* col := f_int (fdiv (fsub x (fx_min g)) (fg_cs g)) in
       Ok (Some (row, col)).
