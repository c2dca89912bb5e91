(** Option and header maps (src/utils_string.cpp, src/data_raster.cpp/.hpp).

    A [std::map<string, V>] is a list of bindings with pairwise distinct keys;
    the list order stands for the iteration order. The code below never depends
    on that order being the sorted one. *)
From Coq Require Import ZArith Ascii String List Bool.
From Verif Require Import Base StrModel.
Import ListNotations.
Open Scope Z_scope.

Section Map.
Context {V : Type}.
(** The maps of data_raster.cpp:106-164 and utils_string.cpp:78-104. *)
Definition smap := list (bytes * V).

(** [map::find] / [map::at]: the value bound to a key.
    E.g. utils_string.cpp:81, data_raster.cpp:124. *)
Fixpoint lookup (m : smap) (k : bytes) : option V :=
  match m with
  | [] => None
  | (k', v) :: t => if beqb k' k then Some v else lookup t k
  end.

(** [m[k] = v] / [m.at(k) = v] on a present key.
    E.g. utils_string.cpp:82, data_raster.cpp:125. *)
Fixpoint assign (m : smap) (k : bytes) (v : V) : smap :=
  match m with
  | [] => []
  | (k', v') :: t => if beqb k' k then (k', v) :: t else (k', v') :: assign t k v
  end.

(** [map::emplace] / [map::insert]: no effect on a present key.
    E.g. data_raster.cpp:106-120. *)
Definition emplace (m : smap) (k : bytes) (v : V) : smap :=
  match lookup m k with Some _ => m | None => m ++ [(k, v)] end.

(** UpdateStringMap (utils_string.cpp:94-104), UpdateStrHeader
    (data_raster.cpp:155-164), UpdateHeader (data_raster.hpp:176-186; the value
    is taken after CVT_DBL). *)
Definition UpdateMap (m : smap) (k : bytes) (v : V) : smap :=
  match lookup m k with Some _ => assign m k v | None => emplace m k v end.

(** CopyStringMap (utils_string.cpp:78-92) and CopyHeader
    (data_raster.cpp:122-136): loop over the source in iteration order. *)
Definition CopyMap (src dst : smap) : smap :=
  match src with
  | [] => dst
  | _ => fold_left (fun d kv => match lookup d (fst kv) with
                                | Some _ => assign d (fst kv) (snd kv)
                                | None => emplace d (fst kv) (snd kv) end) src dst
  end.
End Map.
Arguments smap V : clear implicits.

(** InitialHeader (data_raster.cpp:106-120): the eight numeric header keys
    (data_raster.hpp:90-99), each -9999. *)
Definition header_keys : list bytes :=
  map str ["NCOLS"; "NROWS"; "XLLCENTER"; "YLLCENTER"; "CELLSIZE"; "NODATA_VALUE"; "LAYERS"; "CELLSNUM"]%string.
(** data_raster.cpp:106-120. *)
Definition InitialHeader : smap Z :=
  fold_left (fun m k => emplace m k (-9999)) header_keys [].

(** InitialStrHeader (data_raster.cpp:138-153): five text keys
    (data_raster.hpp:100-105), each empty. *)
Definition strheader_keys : list bytes :=
  map str ["SRS"; "DATATYPE"; "DATATYPE_OUT"; "INCLUDE_NODATA"; "MASK_NAME"]%string.
(** data_raster.cpp:138-153. *)
Definition InitialStrHeader : smap bytes :=
  fold_left (fun m k => emplace m k []) strheader_keys [].
