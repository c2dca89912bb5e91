(** Combining subset files by the subsets of a mask (apps/mask_rasterio.cpp, the mode
    COMBINE with files). Simplifications as in RasterModel and SubsetModel. Proof-free. *)
From Coq Require Import ZArith List Bool.
From Verif Require Import Base RasterModel CoordModel SubsetModel.
Import ListNotations.
Open Scope Z_scope.
Open Scope outcome_scope.

(** An input file (apps/mask_rasterio.cpp:613-630): the number before the first
    underscore of its name, what reading it gives before the positions are
    calculated ([None]: it does not exist or cannot be read), and the order in which the
    parallel iterations of that calculation happen to run. *)
Record infile (T : Type) := mkIn { i_id : Z; i_ras : option (raster T); i_ord : list nat }.
Arguments mkIn {T}. Arguments i_id {T}. Arguments i_ras {T}. Arguments i_ord {T}.

Section Com.
Context {T D : Type}.
(** utils_math.h:140-143. *)
Variable feq : T -> T -> bool.       (* FloatEqual on cell values *)
(** utils_math.h:140-143. *)
Variable feqD : D -> D -> bool.      (* FloatEqual on doubles *)
(** basic.h:325. *)
Variable toint : T -> option Z.      (* CVT_INT *)
(** basic.h:331. *)
Variable toD : T -> D.               (* CVT_DBL *)
(** data_raster.hpp:2997-3008. *)
Variable ofD : D -> outcome T.       (* static_cast<T> of a double *)
(** basic.h:244-246. *)
Variable dNODATA : D.                (* NODATA_VALUE *)
(** data_raster.hpp:3114-3134. *)
Variable write_ok : list (request T) -> request T -> bool. (* what WriteRasterToFile answers *)

(** apps/mask_rasterio.cpp:610-612. *)
Definition all_unusable (subs : list (Z * subset D)) : list (Z * subset D) :=
  map (fun ks => (fst ks, set_sdata (snd ks) (s_lyrs (snd ks)) (s_data (snd ks)) (s_data2 (snd ks)) false)) subs.

(** apps/mask_rasterio.cpp:628: the subset of the number is changed in place. *)
Definition replace_sub (subs : list (Z * subset D)) (id : Z) (s : subset D) : list (Z * subset D) :=
  map (fun ks => (fst ks, if fst ks =? id then s else snd ks)) subs.

(** apps/mask_rasterio.cpp:614-630: one file. [DblRaster::Init(path, true)] calculates the
    positions of the values read (data_raster.hpp:2289-2324). The answer of SetData is
    not looked at. *)
Definition put_file (subs : list (Z * subset D)) (f : infile T) : outcome (list (Z * subset D)) :=
  match zfind subs (i_id f), i_ras f with
  | Some s, Some q =>
      let* qb := SetCalcPositions feq (i_ord f) q in
      let nd := match GetRasterData (fst qb) with Some (n, d) => (n, Some d) | None => (-1, None) end in
      let* sb := SetData toD dNODATA s (fst nd) (snd nd) in
      let* _ := Destroy (fst qb) in
      Ok (replace_sub subs (i_id f) (fst sb))
  | _, _ => Ok subs
  end.

(** apps/mask_rasterio.cpp:608-642: one data set of the mode COMBINE with files. [r], [subs]:
    the mask and its subsets; [dv]: default value of the data set. Result: the
    subsets afterwards, the files written, the answer (which the program ignores).
    [OutputToFile(path, false)] is [OutputSubsetToFile(false, true, path)]
    (data_raster.hpp:2855). *)
Definition combine_item (r : raster T) (subs : list (Z * subset D)) (dv : D) (files : list (infile T))
    : outcome (list (Z * subset D) * (list (request T) * bool)) :=
  let* subs' := ofold put_file files (all_unusable subs) in
  let* w := OutputSubsetToFile feqD toint toD ofD dNODATA write_ok r dv subs' false true [] dNODATA in
  Ok (subs', w).

(** apps/mask_rasterio.cpp:518-655: data sets one after another; the same mask and subsets
    serve all. *)
Definition combine_items (r : raster T) (subs : list (Z * subset D)) (items : list (D * list (infile T)))
    : outcome (list (Z * subset D)) :=
  ofold (fun subs it => let* x := combine_item r subs (fst it) (snd it) in Ok (fst x)) items subs.
End Com.
