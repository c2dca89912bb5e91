(** Vocabulary for the coordinate properties. *)
From Coq Require Import ZArith QArith.
From Verif Require Import CoordModel.
Open Scope Z_scope.

Definition cell_of_grid (g : geo) (row col : Z) : Prop := 0 <= row < g_rows g /\ 0 <= col < g_cols g.

(** The point lies in the cell: left and upper edges belong to it. Row 0 is the
    top row; the lower left cell has its centre at (xll, yll). *)
Definition in_cell (g : geo) (row col : Z) (x y : Q) : Prop :=
  (g_xll g + (inject_Z col - (1 # 2)) * g_cs g <= x)%Q /\
  (x < g_xll g + (inject_Z col + (1 # 2)) * g_cs g)%Q /\
  (g_yll g + (inject_Z (g_rows g - row - 1) - (1 # 2)) * g_cs g < y)%Q /\
  (y <= g_yll g + (inject_Z (g_rows g - row - 1) + (1 # 2)) * g_cs g)%Q.

(** The header does not hold the marker -9999 where a number is expected. *)
Definition header_known (g : geo) : Prop :=
  (1 # 100000000000000000000000000000000 <= g_xll g - inject_Z (-9999) \/ g_xll g - inject_Z (-9999) <= - (1 # 100000000000000000000000000000000))%Q /\
  (1 # 100000000000000000000000000000000 <= g_yll g - inject_Z (-9999) \/ g_yll g - inject_Z (-9999) <= - (1 # 100000000000000000000000000000000))%Q.

(** Strictly inside the rectangle covered by the cells. *)
Definition inside_extent (g : geo) (x y : Q) : Prop :=
  (g_xll g - (1 # 2) * g_cs g < x)%Q /\ (x < g_xll g + (inject_Z (g_cols g) - (1 # 2)) * g_cs g)%Q /\
  (g_yll g - (1 # 2) * g_cs g < y)%Q /\ (y < g_yll g + (inject_Z (g_rows g) - (1 # 2)) * g_cs g)%Q.
