(** Vocabulary for subsets in GridFS. *)
From Coq Require Import ZArith Ascii String List Bool.
From Verif Require Import Base StrModel MapModel FloatModel CoordFloatModel BasicModel TypeModel CellModel GridfsModel GridfsSpec SubsetModel SubsetSpec SubGridModel.
Import ListNotations.
Open Scope Z_scope.

(** The subset holds [L] layers of values: [val i l] for its cell [i], layer [l]. *)
Definition holds (u : subset f64) (L : Z) (val : Z -> Z -> f64) : Prop :=
  s_lyrs u = L /\ 0 < L /\
  if L =? 1 then
    exists d, s_data u = Some d /\ Z.of_nat (length d) = s_n u /\
      forall i, 0 <= i < s_n u -> nth_error d (Z.to_nat i) = Some (val i 0)
  else
    exists d, s_data2 u = Some d /\ Z.of_nat (length d) = s_n u /\
      forall i, 0 <= i < s_n u -> exists row, nth_error d (Z.to_nat i) = Some row /\ Z.of_nat (length row) = L /\
        forall l, 0 <= l < L -> nth_error row (Z.to_nat l) = Some (val i l).

(** Same window and cells. *)
Definition same_cells (u w : subset f64) : Prop :=
  s_n w = s_n u /\ s_srow w = s_srow u /\ s_erow w = s_erow u /\ s_scol w = s_scol u /\ s_ecol w = s_ecol u /\
  s_lidx w = s_lidx u /\ s_global w = s_global u.

(** No arrays of values, or arrays for [L] layers. *)
Definition room (w : subset f64) (L : Z) : Prop :=
  (forall d, s_data w = Some d -> Z.of_nat (length d) = s_n w) /\
  (forall d, s_data2 w = Some d -> Z.of_nat (length d) = s_n w /\ Forall (fun row => Z.of_nat (length row) = L) d).

(** Position of the lower left cell of the window, computed in binary64. *)
Definition corner_x (u : subset f64) (x cs : f64) : f64 := fadd (fmul (of_int (s_scol u)) cs) x.
Definition corner_y (u : subset f64) (rows : Z) (y cs : f64) : f64 := fadd (fmul (of_int (rows - s_erow u - 1)) cs) y.

(** The subset can be described in metadata. *)
Definition describable (u : subset f64) (rows : Z) (x y cs : f64) (L : Z) : Prop :=
  fits_meta (str "XLLCENTER") (corner_x u x cs) /\ fits_meta (str "YLLCENTER") (corner_y u rows y cs) /\
  in_int (win_rows u * win_cols u * L).

(** Options asked for that hold of a file written with the options. *)
Definition asks (own opts : smap bytes) (include : bool) (asked : smap bytes) : Prop :=
  NoDup (map fst asked) /\
  forall k v, In (k, v) asked ->
    k = str "INCLUDE_NODATA" /\ v = (if include then str "TRUE" else str "FALSE") \/
    k <> str "INCLUDE_NODATA" /\ k <> str "DATATYPE_OUT" /\ effective own opts k = Some v.

(** [v] stored as a cell of type [s] and taken out again is [w]. *)
Definition kept (s : rdt) (v w : f64) : Prop := exists c, cvt s (VD v) = Ok c /\ as_double c = w.
