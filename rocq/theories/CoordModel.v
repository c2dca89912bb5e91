(** Coordinates and cells (src/data_raster.hpp), exact arithmetic: header
    numbers and coordinates are rationals. CoordFloatModel.v has the same
    functions in binary64. Proof-free. *)
From Coq Require Import ZArith QArith Qabs Bool List.
From Verif Require Import Base RasterModel.
Import ListNotations.
Open Scope Z_scope.
Open Scope outcome_scope.

(** The header entries used: NROWS, NCOLS, XLLCENTER, YLLCENTER, CELLSIZE.
    Read at data_raster.hpp:3784-3789. *)
Record geo := mkGeo { g_rows : Z; g_cols : Z; g_xll : Q; g_yll : Q; g_cs : Q }.

(** Read at data_raster.hpp:3784-3789. *)
Definition geo_of {T} (r : raster T) : geo := mkGeo (r_rows r) (r_cols r) (r_xll r) (r_yll r) (r_cs r).

(** CVT_INT: drop the fraction. basic.h:325. *)
Definition qtrunc (q : Q) : Z := Z.quot (Qnum q) (Zpos (Qden q)).

(** An operator as used in data_raster.hpp:3790-3796. *)
Definition qltb (a b : Q) : bool := negb (Qle_bool b a).

(** utils_math.h:140-143 FloatEqual in exact arithmetic. *)
Definition q_feq (a b : Q) : bool := qltb (Qabs (a - b)) (1 # 100000000000000000000000000000000).

(** data_raster.hpp:3774-3777 GetCoordinateByRowCol. *)
Definition GetCoordinateByRowCol (g : geo) (row col : Z) : Q * Q :=
  ((g_xll g + inject_Z col * g_cs g)%Q, (g_yll g + inject_Z (g_rows g - row - 1) * g_cs g)%Q).

(** data_raster.hpp:3790-3794 (also 2596, 2597, 2602, 2603). *)
Definition x_min (g : geo) : Q := (g_xll g - g_cs g / 2)%Q.
(** data_raster.hpp:3790-3794. *)
Definition x_max (g : geo) : Q := (x_min g + g_cs g * inject_Z (g_cols g))%Q.
(** data_raster.hpp:3790-3794. *)
Definition y_min (g : geo) : Q := (g_yll g - g_cs g / 2)%Q.
(** data_raster.hpp:3790-3794. *)
Definition y_max (g : geo) : Q := (y_min g + g_cs g * inject_Z (g_rows g))%Q.

(** data_raster.hpp:3780-3799 GetPositionByCoordinate: (row, col). *)
Definition GetPositionByCoordinate (g : geo) (x y : Q) : Z * Z :=
  if (qltb (x_max g) x || qltb x (g_xll g)) || (qltb (y_max g) y || qltb y (g_yll g)) then (-1, -1)
  else (qtrunc ((y_max g - y) / g_cs g), qtrunc ((x - x_min g) / g_cs g)).

(** data_raster.hpp:2579-2612 GetPosition(x, y). NODATA_VALUE is -9999. *)
Definition GetPositionXY {T} (r : raster T) (x y : Q) : outcome Z :=
  let g := geo_of r in
  if negb (r_init r) then Ok (-2)
  else if q_feq (g_xll g) (inject_Z (-9999)) || q_feq (g_yll g) (inject_Z (-9999))
          || q_feq (g_cs g) (inject_Z (-9999)) || (g_rows g <? 0) || (g_cols g <? 0) then Ok (-2)
  else if qltb (x_max g) x || qltb x (x_min g) then Ok (-2)
  else if qltb (y_max g) y || qltb y (y_min g) then Ok (-2)
  else GetPosition r (qtrunc ((y_max g - y) / g_cs g)) (qtrunc ((x - x_min g) / g_cs g)).
