(** Vocabulary for the arrays a raster hands out. *)
From Coq Require Import ZArith List Bool.
From Verif Require Import Base RasterModel RasterSpec.
Import ListNotations.
Open Scope Z_scope.

(** Value of layer [lyr] at index [k] in the arrays. *)
Definition handed {T} (r : raster T) (k lyr : Z) (v : T) : Prop :=
  (exists n d, GetRasterData r = Some (n, d) /\ lyr = 1 /\ 0 <= k < n /\ nth_error d (Z.to_nat k) = Some v) \/
  (exists n l d c, Get2DRasterData r = Some (n, l, d) /\ 1 <= lyr <= l /\ 0 <= k < n /\ nth_error d (Z.to_nat k) = Some c /\ nth_error c (Z.to_nat (lyr - 1)) = Some v).
(** The number of cells that comes with the array. *)
Definition reported {T} (r : raster T) (n : Z) : Prop :=
  (exists d, GetRasterData r = Some (n, d)) \/ (exists l d, Get2DRasterData r = Some (n, l, d)).
(** All values in the arrays. *)
Definition all_values {T} (r : raster T) : list T :=
  match GetRasterData r, Get2DRasterData r with
  | Some (_, d), _ => d
  | None, Some (_, _, d) => concat d
  | None, None => []
  end.
