(** Files by their names (src/data_raster.hpp: OutputToFile, WriteRasterToFile,
    OutputFullsizeToFiles, and the choice of the reader in ReadFromFile and
    ReadFromFiles). Which format a name asks for, under which names files appear,
    and what is read from these names afterwards. Cells are [num]s of the type
    [s]. Proof-free. *)
From Coq Require Import ZArith Ascii String List Bool.
From Flocq Require Import BinarySingleNaN.
From Verif Require Import Base StrModel MapModel BasicModel FloatModel FsModel RasterModel CopyModel NumModel AscModel MongoModel CellModel GdalModel LayersModel.
Import ListNotations.
Open Scope Z_scope.
Open Scope outcome_scope.

(** data_raster.hpp:112-113. *)
Definition ASCIIExtension : bytes := str "asc".
(** data_raster.hpp:112-113. *)
Definition GTiffExtension : bytes := str "tif".

(** What a file holds: the text of an ASC file or a GeoTIFF
    (data_raster.hpp:325-346, 592-827). *)
Inductive filed := CText (t : bytes) | CTif (f : tif).

(** The files of the disk with their names; the first entry of a name counts
    (data_raster.hpp:325-346, 592-827: a former file is deleted first). *)
Definition disk : Type := list (bytes * filed).

(** [ostream <<] of a cell of type [s]: bytes are characters, floats are widened
    (data_raster.hpp:340, 3170, 3198). *)
Definition show_cell (s : rdt) (v : num) : bytes :=
  match v with
  | VI z => match s with
            | RDT_UInt8 | RDT_Int8 => [ascii_of_nat (Z.to_nat (z mod 256))]
            | _ => itoa z
            end
  | VF x => g6 (f64_of_f32 x)
  | VD x => g6 x
  end.

(** [static_cast<T>] of a number read (data_raster.hpp:287). *)
Definition cast_cell (s : rdt) (x : f64) : outcome num := cvt s (VD x).

(** What the format of a name is decided by: data_raster.hpp:843, 2299, 2856. *)
Definition filetype (o : os) (name : bytes) : bytes := GetUpper (GetSuffix o name).

Section Disk.
(** Fixed: built with GDAL, its version, assert compiled in, the type of the
    cells (data_raster.hpp:2850-2869). *)
Variables (gdal g35 g37 asserts : bool) (s : rdt).
(** Fixed: orders of the parallel loops, which files can be opened, created,
    written (data_raster.hpp:2850-2869). *)
Variables (ord1 ord2 : list nat) (ord : bytes -> list nat) (opened made moved : bytes -> bool).
(** Answers of the operating system (utils_filesystem.cpp:134-135, 283-294). *)
Variable o : os.

(** data_raster.hpp:3137-3210 as called at 2858 and 2867. *)
Definition out_asc (h : smap f64) (r : raster num) (name : bytes) : outcome (raster num * bool * disk) :=
  let* out := OutputAscFile (show_cell s) cells_equal o asserts ord1 ord2 opened h r name in
  let '(r', ok, files) := out in
  Ok (r', ok, map (fun nf => (fst nf, CText (snd nf))) files).

(** data_raster.hpp:3213-3263 as called at 2862 and 2864. *)
Definition out_tif (h : smap f64) (opts : smap bytes) (r : raster num) (name : bytes) : outcome (raster num * bool * disk) :=
  let* out := OutputFileByGdal o g35 g37 s ord made moved h opts r name in
  Ok (r, fst out, map (fun nf => (fst nf, CTif (snd nf))) (snd out)).

(** data_raster.hpp:2850-2869 OutputToFile with [out_origin = true]: object
    afterwards, returned flag and files written, in order. ([out_origin = false]
    is OutputSubsetToFile, see SubsetModel.v.) *)
Definition OutputToFile (h : smap f64) (opts : smap bytes) (r : raster num) (filename : bytes) : outcome (raster num * bool * disk) :=
  match GetPathFromFullName o filename with
  | [] => Ok (r, false, [])
  | _ =>
      let abs := GetAbsolutePath o filename in
      if negb (ValidateRasterData r) then Ok (r, false, [])
      else if StringMatch (filetype o abs) ASCIIExtension then out_asc h r abs
      else if gdal then
        if StringMatch (filetype o abs) GTiffExtension then out_tif h opts r abs
        else out_tif h opts r (ReplaceSuffix o abs GTiffExtension)
      else out_asc h r (ReplaceSuffix o abs ASCIIExtension)
  end.

(** data_raster.hpp:325-346 as called at 845 and 855: the file written, if the
    call returns [true]. Both openings are of the same file. *)
Definition write_asc (h : smap f64) (values : option (list num)) (name : bytes) : outcome (option (bytes * filed)) :=
  let abs := GetAbsolutePath o name in
  let* t := WriteSingleAsc (show_cell s) (opened abs) (opened abs) h values in
  Ok (option_map (fun t => (abs, CText t)) t).

(** data_raster.hpp:592-827 as called at 849 and 851. *)
Definition write_tif (h : smap f64) (opts : smap bytes) (values : option (list num)) (name : bytes) : outcome (option (bytes * filed)) :=
  let* f := WriteSingleGeotiff g35 g37 s (ord name) (made name) (moved name) h opts values in
  Ok (option_map (fun f => (name, CTif f)) f).

(** data_raster.hpp:838-857 WriteRasterToFile: the file written, [None] when the
    call returns [false]. *)
Definition WriteRasterToFile (h : smap f64) (opts : smap bytes) (values : option (list num)) (filename : bytes)
    : outcome (option (bytes * filed)) :=
  match GetPathFromFullName o filename with
  | [] => Ok None
  | _ =>
      let abs := GetAbsolutePath o filename in
      if StringMatch (filetype o abs) ASCIIExtension then write_asc h values abs
      else if gdal then
        if StringMatch (filetype o abs) GTiffExtension then write_tif h opts values abs
        else write_tif h opts values (ReplaceSuffix o abs GTiffExtension)
      else write_asc h values (ReplaceSuffix o abs ASCIIExtension)
  end.

(** data_raster.hpp:3124-3127: layer [ilyr] of the cells [full], taken into the
    buffer [tmp]. *)
Definition take_layer (full : list num) (fsize lyrs ilyr : Z) (tmp : list num) : outcome (list num) :=
  ofold (fun a gi => let* v := aget full (gi * lyrs + ilyr) in aset a gi v) (zseq fsize) tmp.

(** data_raster.hpp:3113-3135 OutputFullsizeToFiles: returned flag and files
    written. [nv]: the constant NODATA_VALUE as a cell. Array sizes fit in [int]. *)
Definition OutputFullsizeToFiles (h : smap f64) (opts : smap bytes) (full : option (list num)) (fsize lyrs : Z) (nv : num) (name : bytes)
    : outcome (bool * disk) :=
  match full with
  | None => Ok (false, [])
  | Some a =>
      if lyrs <? 1 then Ok (false, [])
      else if lyrs =? 1 then
        let* f := WriteRasterToFile h opts (Some a) name in
        Ok (match f with Some nf => (true, [nf]) | None => (false, []) end)
      else
        let* st := ofold (fun (st : bool * disk * list num) ilyr =>
          let '(ok, files, tmp) := st in
          let* tmp' := take_layer a fsize lyrs ilyr tmp in
          if ok then
            let* f := WriteRasterToFile h opts (Some tmp') (AppendCoreFileName o name (itoa (ilyr + 1)) "_") in
            match f with
            | Some nf => Ok (true, files ++ [nf], tmp')
            | None => Ok (false, files, tmp')
            end
          else Ok (false, files, tmp')) (zseq lyrs) (true, [], repeat nv (Z.to_nat fsize)) in
        Ok (fst st)
  end.

(** access(2) on the files of the disk (utils_filesystem.cpp:35-41). *)
Definition on_disk (d : disk) (name : bytes) : bool := match lookup d name with Some _ => true | None => false end.

(** data_raster.hpp:2299-2308 and 3469-3477: reading the file of that name by the
    reader its suffix asks for, from a header and a null array. [minmax]: what
    GDAL computes for the file. A GeoTIFF read as text and a text read by GDAL are
    not modelled ([UB] stands for them), nor are other files than ASC files in a
    program without GDAL, nor a text that is never read to its end (it is, in
    [S (length t)] steps). *)
Definition read_named (d : disk) (minmax : tif -> option (f64 * f64)) (name : bytes) (h : smap f64) : outcome layer_read :=
  if StringMatch (filetype o name) ASCIIExtension then
    match lookup d name with
    | None => Ok (false, h, None)
    | Some (CText t) =>
        match ReadAscFile (cast_cell s) (S (List.length t)) (Some {| FsModel.content := t; read_error := false |}) h None with
        | Some out => out
        | None => UB
        end
    | Some (CTif _) => UB
    end
  else if negb gdal then UB
  else
    match lookup d name with
    | None => Ok (false, h, None)
    | Some (CTif f) =>
        let* g := ReadRasterFileByGdal g35 g37 s (Some f) (minmax f) true h None RDT_Unknown [] in
        Ok (g_ok g, g_header g, g_values g)
    | Some (CText _) => UB
    end.
End Disk.
