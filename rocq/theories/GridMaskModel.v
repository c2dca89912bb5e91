(** Reading a raster from GridFS with a mask that has subsets: the part of
    data_raster.hpp:3511-3620 (ReadFromMongoDB) that GridfsModel.v leaves out. Proof-free. *)
From Coq Require Import ZArith QArith List Bool.
From Verif Require Import Base StrModel MapModel BasicModel RasterModel CoordModel FloatModel CoordFloatModel TypeModel MongoModel CopyModel NumModel AscModel CellModel GdalModel MaskModel SubsetModel MaskSubModel GridfsModel.
Import ListNotations.
Open Scope Z_scope.
Open Scope outcome_scope.

Section GridMask.
Context {D : Type}.
(** The choice among files of one name (db_mongoc.cpp:308-334). *)
Variable pick : list gfile -> option gfile.
(** FloatEqual (utils_math.h:140-143). *)
Variable feq : num -> num -> bool.

(** data_raster.hpp:3561-3579: the raster takes the positions of the mask. [h] is the
    header read. *)
Definition by_positions (calc maskext : bool) (v : mask_view) (h : smap f64) : outcome bool :=
  let* rows_d := at_get h K_NROWS in
  let* rows := f_int rows_d in
  let* cols_d := at_get h K_NCOLS in
  let* cols := f_int cols_d in
  let* full := imul rows cols in
  let* cells_d := at_get h K_CELLSNUM in
  let* cells := f_int cells_d in
  Ok ((calc || negb (cells =? full)) && maskext && (cells =? mk_valid v)).

(** data_raster.hpp:3511-3620 with a mask whose [subset_] is [msubs], by an object that has
    no subsets: what GridfsModel.v gives, and the subsets of the object. [masked] is what
    masking (3614-3616, MaskSubModel.v) makes of them. The condition is computed a second
    time; the grid before masking is what is read with a mask that changes nothing. *)
Definition ReadWithSubsets (s : rdt) (ord : list nat) (st : list gfile) (name : bytes) (calc : bool) (v : mask_view)
    (msubs : list (Z * subset D)) (masked : raster num -> outcome (list (Z * subset D))) (maskext : bool) (dflt nv : num) (opts : smap bytes)
    : outcome (bool * smap f64 * smap bytes * option (raster num) * list (Z * subset D)) :=
  let* res := ReadFromMongoDB pick feq s ord st name calc (Some v) maskext dflt nv opts in
  let '(ok, h, own, o) := res in
  match o with
  | None => Ok (res, [])
  | Some r =>
      let* taken := by_positions calc maskext v h in
      if taken then
        let* subs := omapm (fun ks => let* c := CopySubset (r_nlyrs r) (snd ks) in Ok (fst ks, c)) msubs in Ok (res, subs)
      else
        let* plain := ReadFromMongoDB pick feq s ord st name calc
                        (Some (mkMask (mk_valid v) (mk_count v) (mk_pos v) (mk_idx v) (fun r => Ok (r, 0)))) maskext dflt nv opts in
        match snd plain with
        | None => UB
        | Some r0 => let* subs := masked r0 in Ok (res, subs)
        end
  end.
End GridMask.
