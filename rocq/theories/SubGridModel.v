(** Subsets of a raster in MongoDB GridFS (src/data_raster.hpp, src/data_raster.cpp):
    one file per subset or one for all, and reading one subset. Simplifications as in
    SubsetModel and GridfsModel. Proof-free. *)
From Coq Require Import ZArith Ascii String List Bool.
From Verif Require Import Base StrModel MapModel RasterModel BasicModel FloatModel CoordFloatModel TypeModel MongoModel CopyModel NumModel AscModel CellModel GdalModel GridfsModel SubsetModel.
Import ListNotations.
Open Scope Z_scope.
Open Scope outcome_scope.

(** src/basic.h:244-246 NODATA_VALUE. *)
Definition nodata_value : f64 := of_int (-9999).

(** src/data_raster.cpp:310-330: values of subset [u] from the array [d] of [cells] cells
    with [lyrs] layers read; [full]: size of the window. *)
Definition take_values (u : subset f64) (full cells lyrs : Z) (d : list f64) : outcome (subset f64) :=
  if lyrs =? 1 then
    let old := match s_data u with
               | Some o => o
               | None => match init1d None (s_n u) nodata_value with Some a => a | None => [] end
               end in
    let* d' := ofold (fun o i =>
         let* li := deref (s_lidx u) in
         let* j := aget li i in
         let* v := aget d j in aset o i v) (zseq (s_n u)) old in
    Ok (set_sdata u 1 (Some d') (s_data2 u) true)
  else
    let old := match s_data2 u with Some o => o | None => repeat (repeat nodata_value (Z.to_nat lyrs)) (Z.to_nat (s_n u)) end in
    let* d' := ofold (fun o i =>
         ofold (fun o j =>
           let* p := (if full =? cells then let* li := deref (s_lidx u) in aget li i else Ok i) in
           let* v := aget d (p * lyrs + j) in
           let* row := aget o i in
           let* row' := aset row j v in
           aset o i row') (zseq lyrs) o) (zseq (s_n u)) old in
    Ok (set_sdata u lyrs (s_data u) (Some d') true).

(** src/data_raster.cpp:289-333 SubsetPositions::ReadFromMongoDB: returned flag and the
    subset afterwards. *)
Definition ReadSubset (pick : list gfile -> option gfile) (st : list gfile) (u : subset f64) (name : bytes) (opts : smap bytes)
    : outcome (bool * subset f64) :=
  let h0 := map (fun kv => (fst kv, of_int (snd kv))) InitialHeader in
  let* x := ReadGridFsFile pick RDT_Double st name h0 InitialStrHeader opts in
  let '(ok, h, _, data) := x in
  if negb ok then Ok (false, u)
  else
    let* full := imul (s_erow u - s_srow u + 1) (s_ecol u - s_scol u + 1) in
    let* cells_d := at_get h K_CELLSNUM in
    let* cells := f_int cells_d in
    let* lyrs_d := at_get h K_LAYERS in
    let* lyrs := f_int lyrs_d in
    if (negb (full =? cells) && negb (s_n u =? cells)) || (lyrs <? 0) then Ok (false, u)
    else
      let* vs := deref data in
      let d := map as_double vs in
      if (lyrs =? 1) && (s_n u =? cells) then
        let* b := SetData (fun x => x) nodata_value (set_sdata u lyrs (s_data u) (s_data2 u) (s_usable u)) cells (Some d) in
        Ok (snd b, fst b)
      else let* u' := take_values u full cells lyrs d in Ok (true, u').

(** src/data_raster.cpp:336-347 SubsetPositions::GetHeader, in binary64, into the map [h]. *)
Definition subset_header (u : subset f64) (x y : f64) (rows : Z) (cs nd : f64) (h : smap f64) : smap f64 :=
  let h1 := UpdateMap h K_XLL (fadd (fmul (of_int (s_scol u)) cs) x) in
  let h2 := UpdateMap h1 K_YLL (fadd (fmul (of_int (rows - s_erow u - 1)) cs) y) in
  let h3 := UpdateMap h2 K_NODATA nd in
  let h4 := UpdateMap h3 K_NROWS (of_int (s_erow u - s_srow u + 1)) in
  let h5 := UpdateMap h4 K_NCOLS (of_int (s_ecol u - s_scol u + 1)) in
  let h6 := UpdateMap h5 K_CELLSIZE cs in
  let h7 := UpdateMap h6 K_CELLSNUM (of_int (-1)) in
  UpdateMap h7 K_LAYERS (of_int (-1)).

(** src/data_raster.hpp:3407: the name of the file of subset [k]. *)
Definition subset_name (k : Z) (name : bytes) : bytes := itoa k ++ str "_" ++ name.

Section Output.
(** The type parameter and conversions of data_raster.hpp:3348-3412. *)
Variable s : rdt.                    (* type of the cells *)
(** The type parameter and conversions of data_raster.hpp:3348-3412. *)
Variable toint : num -> option Z.    (* CVT_INT *)
(** The type parameter and conversions of data_raster.hpp:3348-3412. *)
Definition to_cell (x : f64) : outcome num := cvt s (VD x).

(** src/data_raster.hpp:3394-3410: one subset. State: flag, bucket, the map subheader. *)
Definition put_subset (saved : Z -> nat -> bool) (r : raster num) (dv : f64) (x y : f64) (rows : Z) (cs : f64) (name : bytes)
    (own : smap bytes) (include origin : bool) (recls : list (Z * list f64)) (default : f64)
    (acc : bool * list gfile * smap f64) (ks : Z * subset f64) : outcome (bool * list gfile * smap f64) :=
  let '(flag, st, h) := acc in
  let u := snd ks in
  if negb (s_usable u) then Ok acc
  else
    let h1 := subset_header u x y rows cs (as_double (r_nodata r)) h in
    let* p := PrepareSubsetData FloatEqual toint to_cell nodata_value r dv (fst ks) u origin include recls default in
    match p with
    | None => Ok (flag, st, h1)
    | Some (d, len, lyrs) =>
        if lyrs =? 0 then UB
        else
          let h2 := UpdateMap (UpdateMap h1 K_LAYERS (of_int lyrs)) K_CELLSNUM (of_int (Z.quot len lyrs)) in
          if flag then
            let* w := WriteStreamDataAsGridfs s (saved (fst ks)) st (subset_name (fst ks) name) h2 (if len <=? 0 then None else Some d) len own in
            Ok (fst w, snd w, h2)
          else Ok (flag, st, h2)
    end.

(** src/data_raster.hpp:3348-3412 OutputSubsetToMongoDB with subsets: returned flag, bucket,
    options. [h]: the header with XLLCENTER and YLLCENTER. [saved k]: the attempts to
    save the file of subset [k]. [sublen] and [sublyrs] have no value when the values
    cannot be prepared: using them is undefined. *)
Definition OutputSubsetToMongoDB (saved : Z -> nat -> bool) (st : list gfile) (h : smap f64) (own : smap bytes) (r : raster num) (dv : f64)
    (subs : list (Z * subset f64)) (core filename : bytes) (opts : smap bytes) (include origin combined : bool)
    (recls : list (Z * list f64)) (default : f64) : outcome (bool * list gfile * smap bytes) :=
  if negb (ValidateRasterData r) then Ok (false, st, own)
  else match subs with
  | [] => Ok (false, st, own)
  | _ =>
    let own' := output_options s own opts include in
    let name := match filename with [] => core | _ => filename end in
    let* rows_d := at_get h K_NROWS in
    let* rows := f_int rows_d in
    if combined then
      let* p := PrepareCombSubsetData FloatEqual toint as_double to_cell nodata_value r dv subs origin include recls default in
      match p with
      | None => UB
      | Some (d, len, lyrs) =>
          if lyrs =? 0 then UB
          else
            let h1 := UpdateMap (UpdateMap (CopyMap h []) K_LAYERS (of_int lyrs)) K_CELLSNUM (of_int (Z.quot len lyrs)) in
            let* w := WriteStreamDataAsGridfs s (saved 0) st (str "0_" ++ name) h1 (if len <=? 0 then None else Some d) len own' in
            Ok (fst w, snd w, own')
      end
    else
      let* x := at_get h K_XLL in
      let* y := at_get h K_YLL in
      let* cs := at_get h K_CELLSIZE in
      let* w := ofold (put_subset saved r dv x y rows cs name own' include origin recls default) subs (true, st, []) in
      Ok (true, snd (fst w), own')
  end.
End Output.
