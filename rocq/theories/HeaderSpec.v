(** Vocabulary for setting headers. *)
From Coq Require Import ZArith List Bool String.
From Verif Require Import Base RasterModel RasterSpec StrModel MapModel FloatModel CoordFloatModel.
Import ListNotations.
Open Scope Z_scope.

(** What the header says after copying [refers] over [h]. *)
Definition merged (refers h : smap f64) (k : string) : option f64 :=
  match lookup refers (str k) with Some v => Some v | None => lookup h (str k) end.
(** The merged header gives [x] as the coordinate of the centre of the lower left cell: under
    [centre], or half a cell (in doubles) from what is under [corner]. *)
Definition centre_at (refers h : smap f64) (centre corner : string) (x cs : f64) : Prop :=
  merged refers h centre = Some x \/
  merged refers h centre = None /\ exists c, merged refers h corner = Some c /\ x = fadd c (fmul (fdiv (of_int 1) (of_int 2)) cs).
(** The merged header has these sizes (all in the range of int), coordinates, NoData value. *)
Definition says {T} (refers h : smap f64) (cast : f64 -> outcome T) (rows cols lyrs cells : Z) (x y cs : f64) (nd : T) : Prop :=
  merged refers h "NROWS" = Some (of_int rows) /\ merged refers h "NCOLS" = Some (of_int cols) /\
  merged refers h "LAYERS" = Some (of_int lyrs) /\ merged refers h "CELLSNUM" = Some (of_int cells) /\
  centre_at refers h "XLLCENTER" "XLLCORNER" x cs /\ centre_at refers h "YLLCENTER" "YLLCORNER" y cs /\ merged refers h "CELLSIZE" = Some cs /\
  (exists d, merged refers h "NODATA_VALUE" = Some d /\ cast d = Ok nd) /\
  (forall z, In z [rows; cols; lyrs; cells] -> -2147483648 <= z <= 2147483647).
