(** GeoTIFF rasters (src/data_raster.hpp, src/data_raster.cpp): the writer of one
    grid, the writer of a raster object and the reader.

    The GDAL library is external. It is represented by the data handed to it and
    received from it: a file is what has been stored, and is given back when it
    is read. Whether a driver, a file or a transfer is available is an argument.
    [g35], [g37]: GDAL is at least version 3.5, 3.7. Console messages and the
    creation of directories are dropped, as is memory leaked on failures. *)
From Coq Require Import ZArith Ascii String List Bool.
From Flocq Require Import BinarySingleNaN.
From Verif Require Import Base StrModel FsModel MapModel RasterModel BasicModel FloatModel CoordFloatModel TypeModel CopyModel AscModel CellModel.
Import ListNotations.
Open Scope Z_scope.
Open Scope outcome_scope.

(** GDALDataType, as far as told apart. [GDT_Other]: complex types etc.
    data_raster.cpp:80-103. *)
Inductive gdt := GDT_Unknown | GDT_Byte | GDT_Int8 | GDT_UInt16 | GDT_Int16 | GDT_UInt32 | GDT_Int32
               | GDT_UInt64 | GDT_Int64 | GDT_Float32 | GDT_Float64 | GDT_Other.

(** data_raster.cpp:80-103 CvtToGDALDataType. *)
Definition CvtToGDALDataType (g35 g37 : bool) (t : rdt) : gdt :=
  match t with
  | RDT_Unknown => GDT_Unknown
  | RDT_UInt8 => GDT_Byte
  | RDT_Int8 => if g37 then GDT_Int8 else GDT_Byte
  | RDT_UInt16 => GDT_UInt16
  | RDT_Int16 => GDT_Int16
  | RDT_UInt32 => GDT_UInt32
  | RDT_Int32 => GDT_Int32
  | RDT_UInt64 => if g35 then GDT_UInt64 else GDT_Unknown
  | RDT_Int64 => if g35 then GDT_Int64 else GDT_Unknown
  | RDT_Float => GDT_Float32
  | RDT_Double => GDT_Float64
  end.

(** The six numbers of a geotransform, [geo_trans[0]] ... [geo_trans[5]].
    data_raster.hpp:810-817. *)
Record geotrans := mkGeo { gt0 : f64; gt1 : f64; gt2 : f64; gt3 : f64; gt4 : f64; gt5 : f64 }.

(** A file with one band: type, PIXELTYPE=SIGNEDBYTE, size, cells row by row,
    NoData value if any, geotransform, projection. What data_raster.hpp:788-821 hands over. *)
Record tif := mkTif {
  f_type : gdt; f_signed : bool; f_rows : Z; f_cols : Z; f_cells : list num;
  f_nodata : option f64; f_geo : geotrans; f_srs : bytes
}.

(** The bytes of a signed char buffer handed over as GDT_Byte.
    data_raster.hpp:625-631, 798. *)
Definition stored_as (g : gdt) (v : num) : num :=
  match g, v with GDT_Byte, VI z => VI (wrap 0 255 z) | _, _ => v end.

(** Options (data_raster.hpp:100-103). *)
Definition K_SRS := str "SRS".
(** data_raster.hpp:103. *)
Definition K_OUTTYPE := str "DATATYPE_OUT".

(** data_raster.cpp:166-171 RasterDataTypeInOptionals. *)
Definition RasterDataTypeInOptionals (opts : smap bytes) : rdt :=
  match lookup opts K_OUTTYPE with Some s => StringToRasterDataType s | None => RDT_Unknown end.

(** data_raster.hpp:609-612, 632-635, ..., the NoData value for an integer type:
    new value, its integer, and whether it has changed. *)
Definition fit_nodata (t : rdt) (nd : f64) : option (f64 * Z * bool) :=
  match limits t with
  | None => None
  | Some ((lo, _), (hi, _)) =>
      let z := match t with RDT_UInt8 | RDT_UInt16 | RDT_UInt32 | RDT_UInt64 => hi | _ => lo end in
      if flt nd (of_int lo) || flt (of_int hi) nd then Some (of_int z, z, true) else Some (nd, z, false)
  end.

(** data_raster.hpp:616-621, 639-644, ...: one cell for an integer type: what is
    stored, and whether it is counted as illegal. *)
Definition fit_cell (s t : rdt) (nd : f64) (subst : Z) (changed : bool) (v : num) : outcome (num * bool) :=
  if FloatEqual (as_double v) nd && changed then Ok (VI subst, false)
  else match limits t with
       | None => UB
       | Some ((lo, tlo), (hi, thi)) =>
           let* w := cvt t v in Ok (w, less s v lo tlo || greater s v hi thi)
       end.

(** data_raster.hpp:613-622, ..., the parallel loop over the cells with iterations
    in the order [ord]: the new array ([None]: not written) and [illegal_count]. *)
Definition fit_cells (s t : rdt) (nd : f64) (subst : Z) (changed : bool) (ord : list nat) (n : Z) (values : option (list num))
  : outcome (list (option num) * Z) :=
  ofold (fun st i =>
    let* vs := deref values in
    let* v := aget vs (Z.of_nat i) in
    let* w := fit_cell s t nd subst changed v in
    let* a := aset (fst st) (Z.of_nat i) (Some (fst w)) in
    Ok (a, snd st + if snd w then 1 else 0)) ord (repeat None (Z.to_nat n), 0).

(** data_raster.hpp:753-764, the loops for float and double. *)
Definition widen_cells (t : rdt) (ord : list nat) (n : Z) (values : option (list num)) : outcome (list (option num)) :=
  ofold (fun a i =>
    let* vs := deref values in
    let* v := aget vs (Z.of_nat i) in
    let* w := cvt t v in
    aset a (Z.of_nat i) (Some w)) ord (repeat None (Z.to_nat n)).

(** data_raster.hpp:597-766: the array to be written, its type, the NoData value
    for the file and the option PIXELTYPE; [None]: refused (767-773). [s] is the
    type of the cells, [out] the type asked for. *)
Definition output_array (g35 g37 : bool) (s out : rdt) (nd : f64) (ord : list nat) (n : Z) (values : option (list num))
  : outcome (option (rdt * option (list (option num)) * f64 * bool)) :=
  if (match out with RDT_Unknown => true | _ => false end)
     || (match s, out with
         | RDT_UInt8, RDT_UInt8 | RDT_UInt16, RDT_UInt16 | RDT_Int16, RDT_Int16 | RDT_UInt32, RDT_UInt32
         | RDT_Int32, RDT_Int32 | RDT_UInt64, RDT_UInt64 | RDT_Int64, RDT_Int64 | RDT_Float, RDT_Float
         | RDT_Double, RDT_Double => true
         | _, _ => false end)
  then
    match s with
    | RDT_Unknown => Ok None
    | _ => Ok (Some (s, option_map (map Some) values, nd, false))
    end
  else
    match out with
    | RDT_Float | RDT_Double =>
        let* a := widen_cells out ord n values in Ok (Some (out, Some a, nd, false))
    | RDT_UInt64 | RDT_Int64 =>
        if g35 then
          match fit_nodata out nd with
          | None => Ok None
          | Some (nd', z, changed) =>
              let* st := fit_cells s out nd z changed ord n values in
              if 0 <? snd st then Ok None else Ok (Some (out, Some (fst st), nd', false))
          end
        else Ok None
    | _ =>
        match fit_nodata out nd with
        | None => Ok None
        | Some (nd', z, changed) =>
            let* st := fit_cells s out nd z changed ord n values in
            if 0 <? snd st then Ok None
            else Ok (Some (out, Some (fst st), nd', match out with RDT_Int8 => negb g37 | _ => false end))
        end
    end.

(** RasterIO(GF_Write): [n] elements of the buffer are read; reading one that was
    not written is undefined. data_raster.hpp:794-799. *)
Definition transfer (n : Z) (a : list (option num)) : outcome (list num) :=
  ofold (fun acc i => let* v := aget a i in let* w := deref v in Ok (acc ++ [w])) (zseq n) [].

(** data_raster.hpp:807-814, the geotransform of a header. *)
Definition geo_of_header (h : smap f64) (rows : Z) : outcome geotrans :=
  let* x := at_get h K_XLL in
  let* cs := at_get h K_CELLSIZE in
  let* y := at_get h K_YLL in
  Ok (mkGeo (fsub x (fmul half cs)) cs f64_zero
            (fadd y (fmul (fsub (of_int rows) half) cs)) f64_zero (Bopp cs)).

(** data_raster.hpp:592-827 WriteSingleGeotiff: the file, [None] when the call
    returns [false]. [made]: the driver is there and Create succeeds (which it
    never does without a type or without cells); [moved]: RasterIO succeeds (which
    it never does with a null buffer). *)
Definition WriteSingleGeotiff (g35 g37 : bool) (s : rdt) (ord : list nat) (made moved : bool)
    (h : smap f64) (opts : smap bytes) (values : option (list num)) : outcome (option tif) :=
  let* rows_d := at_get h K_NROWS in
  let* rows := f_int rows_d in
  let* cols_d := at_get h K_NCOLS in
  let* cols := f_int cols_d in
  let* nd := at_get h K_NODATA in
  let* n := imul cols rows in
  let* out := output_array g35 g37 s (RasterDataTypeInOptionals opts) nd ord n values in
  match out with
  | None => Ok None
  | Some (t, a, nd', sgn) =>
      let g := CvtToGDALDataType g35 g37 t in
      if negb made || (match g with GDT_Unknown => true | _ => false end) || (rows <=? 0) || (cols <=? 0) then Ok None
      else
        match a with
        | None => Ok None
        | Some b =>
            let* cells := transfer n b in
            if negb moved then Ok None
            else
              let* geo := geo_of_header h rows in
              Ok (Some (mkTif g sgn rows cols (map (stored_as g) cells) (Some nd') geo
                              (match lookup opts K_SRS with Some p => p | None => [] end)))
        end
  end.

(** data_raster.hpp:3226-3243, the full grid of one layer (from 1). [buf] is
    [data_1d], reused from layer to layer. *)
Definition layer_buffer (r : raster num) (direct : bool) (n lyr : Z) (buf : option (list num)) : outcome (option (list num)) :=
  let buf1 := init1d buf n (r_nodata r) in
  if direct then
    ofold (fun b i =>
      let* v := read_cell r i lyr in
      let* a := deref b in
      let* a' := aset a i v in Ok (Some a')) (zseq n) buf1
  else
    ofold (fun b k =>
      let* ix := deref (r_posidx r) in
      let* i := aget ix k in
      let* v := read_cell r k lyr in
      let* a := deref b in
      let* a' := aset a i v in Ok (Some a')) (zseq (r_ncells r)) buf1.

(** data_raster.hpp:3213-3263 OutputFileByGdal: returned flag and the files
    written. [ord name] is the order of the parallel loop for that file. *)
Definition OutputFileByGdal (o : os) (g35 g37 : bool) (s : rdt) (ord : bytes -> list nat) (made moved : bytes -> bool)
    (h : smap f64) (opts : smap bytes) (r : raster num) (filename : bytes) : outcome (bool * list (bytes * tif)) :=
  let abs := GetAbsolutePath o filename in
  let direct := isnull (r_pos r) || isnull (r_posidx r) in
  let* rows_d := at_get h K_NROWS in
  let* rows := f_int rows_d in
  let* cols_d := at_get h K_NCOLS in
  let* cols := f_int cols_d in
  if r_is2d r then
    match GetPathFromFullName o abs with
    | [] => Ok (false, [])
    | _ =>
        let* st := ofold (fun (st : bool * list (bytes * tif) * option (list num)) lyr =>
          let '(go, files, buf) := st in
          if negb go then Ok st
          else
            let name := AppendCoreFileName o abs (itoa (lyr + 1)) "_" in
            let* n := imul rows cols in
            let* buf' := layer_buffer r direct n (lyr + 1) buf in
            let* f := WriteSingleGeotiff g35 g37 s (ord name) (made name) (moved name) h opts buf' in
            match f with
            | None => Ok (false, files, None)
            | Some t => Ok (true, files ++ [(name, t)], buf')
            end) (zseq (r_nlyrs r)) (true, [], None) in
        Ok (fst st)
    end
  else
    let* buf := (if direct then Ok (r_data r)
                 else let* n := imul rows cols in layer_buffer r false n 1 None) in
    let* f := WriteSingleGeotiff g35 g37 s (ord abs) (made abs) (moved abs) h opts buf in
    match f with
    | None => Ok (false, [])
    | Some t => Ok (true, [(abs, t)])
    end.

(** data_raster.hpp:402-406, is a byte band read as signed? [minmax] is what
    ComputeRasterMinMax stores; nothing when it fails, and reading the two numbers
    then is undefined. *)
Definition signed_band (minmax : option (f64 * f64)) (nd : option f64) : outcome bool :=
  let* m := deref minmax in
  let (lo, hi) := m in
  let small := Bleb hi (of_int 127) in
  Ok ((small && flt lo f64_zero)
      || (small && Bleb f64_zero lo && match nd with None => true | Some x => flt x f64_zero end)).

(** data_raster.hpp:389-549: the cells as the type [s] and the type read;
    [None]: an unexpected type, or RasterIO failed. Types unknown to an older GDAL do not occur in its
    files. *)
Definition read_cells (g35 g37 : bool) (s : rdt) (f : tif) (minmax : option (f64 * f64)) (moved : bool) (n : Z) : outcome (option (list num * rdt)) :=
  let as_type (t : rdt) :=
    if negb moved then Ok None else let* vs := convert_array s n (f_cells f) in Ok (Some (vs, t)) in
  match f_type f with
  | GDT_Byte =>
      let* sg := signed_band minmax (f_nodata f) in
      if negb moved then Ok None
      else if sg then
        let* cs := convert_array RDT_Int8 n (f_cells f) in
        let* vs := convert_array s n cs in
        Ok (Some (vs, RDT_Int8))
      else as_type RDT_UInt8
  | GDT_Int8 => if g37 then as_type RDT_Int8 else Ok None
  | GDT_UInt16 => as_type RDT_UInt16
  | GDT_Int16 => as_type RDT_Int16
  | GDT_UInt32 => as_type RDT_UInt32
  | GDT_Int32 => as_type RDT_Int32
  | GDT_UInt64 => if g35 then as_type RDT_UInt64 else Ok None
  | GDT_Int64 => if g35 then as_type RDT_Int64 else Ok None
  | GDT_Float32 => as_type RDT_Float
  | GDT_Float64 => as_type RDT_Double
  | GDT_Unknown | GDT_Other => Ok None
  end.

(** What ReadRasterFileByGdal leaves in its arguments: the returned flag, header,
    values, data type, projection. data_raster.hpp:359-361. *)
Record gread := mkGread {
  g_ok : bool; g_header : smap f64; g_values : option (list num); g_intype : rdt; g_srs : bytes
}.

(** data_raster.hpp:359-573 ReadRasterFileByGdal into cells of type [s]. [file]:
    [None] when it cannot be opened; [moved]: RasterIO succeeds. *)
Definition ReadRasterFileByGdal (g35 g37 : bool) (s : rdt) (file : option tif) (minmax : option (f64 * f64)) (moved : bool)
    (header : smap f64) (values : option (list num)) (in_type : rdt) (srs : bytes) : outcome gread :=
  match file with
  | None => Ok (mkGread false header values in_type srs)
  | Some f =>
      let rows := f_rows f in
      let cols := f_cols f in
      let* n := imul rows cols in
      let* out := read_cells g35 g37 s f minmax moved n in
      match out with
      | None => Ok (mkGread false header values in_type srs)
      | Some (vs, t) =>
          let nd := match f_nodata f with Some x => x | None => DefaultNoDataByType t end in
          let g := f_geo f in
          let h1 := UpdateMap header K_NCOLS (of_int cols) in
          let h2 := UpdateMap h1 K_NROWS (of_int rows) in
          let h3 := UpdateMap h2 K_NODATA nd in
          let h4 := UpdateMap h3 K_CELLSIZE (gt1 g) in
          let h5 := UpdateMap h4 K_XLL (fadd (gt0 g) (fmul half (gt1 g))) in
          let h6 := UpdateMap h5 K_YLL (fadd (gt3 g) (fmul (fsub (of_int rows) half) (gt5 g))) in
          let h7 := UpdateMap h6 K_LAYERS (of_int 1) in
          let* n2 := imul cols rows in
          Ok (mkGread true (UpdateMap h7 K_CELLSNUM (of_int n2)) (Some vs) t (f_srs f))
      end
  end.
