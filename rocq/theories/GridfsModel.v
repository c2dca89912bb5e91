(** Rasters in MongoDB GridFS (src/data_raster.hpp, src/db_mongoc.cpp): writing
    and reading an array of values with its metadata, and writing and reading a
    raster object.

    The MongoDB driver is external. A bucket is the list of its files, in the
    order stored. Whether saving a file succeeds is an argument, as is the file
    found when several match; transfers are complete and a failed attempt stores
    nothing. Memory is always available; [malloc(0)] is not null (glibc). Console
    messages and waiting times are dropped, as is memory leaked. Proof-free. *)
From Coq Require Import ZArith QArith Ascii String List Bool.
From Flocq Require Import BinarySingleNaN.
From Verif Require Import Base StrModel MapModel RasterModel BasicModel FloatModel CoordFloatModel TypeModel MongoModel CopyModel NumModel AscModel CellModel GdalModel.
Import ListNotations.
Open Scope Z_scope.
Open Scope outcome_scope.

(** A stored file: name, metadata, contents. db_mongoc.cpp:442-471. *)
Record gfile := mkGfile { gf_name : bytes; gf_meta : bson; gf_data : bytes }.

(** Equality of values in a query: numbers are compared by value whatever their
    type; NaN matches NaN. The driver's side of db_mongoc.cpp:308-334 and 336-370. *)
Definition bson_num (v : bson_value) : option f64 :=
  match v with BInt32 z | BInt64 z => Some (of_int z) | BDouble x => Some x | _ => None end.
(** The driver's side of db_mongoc.cpp:308-334 and 336-370. *)
Definition num_same (x y : f64) : bool :=
  match x, y with B754_nan, B754_nan => true | _, _ => Beqb x y end.
(** The driver's side of db_mongoc.cpp:308-334 and 336-370. *)
Definition bson_same (v w : bson_value) : bool :=
  match v, w with
  | BUtf8 s, BUtf8 t => beqb s t
  | _, _ => match bson_num v, bson_num w with Some x, Some y => num_same x y | _, _ => false end
  end.

(** Does the file satisfy the query on the file name and on fields of the
    metadata? Option names hold no dot, so that [metadata.name] is the field
    [name] of the metadata. The driver's side of db_mongoc.cpp:308-334 and 336-370. *)
Definition matches (name : bytes) (filter : bson) (f : gfile) : bool :=
  beqb name (gf_name f) &&
  forallb (fun kv => match bson_find (gf_meta f) (fst kv) with Some w => bson_same (snd kv) w | None => false end) filter.

(** db_mongoc.cpp:318-320, 344-346: the conditions on the metadata. *)
Definition query (opts : smap bytes) : outcome bson := AppendStringOptionsToBson strtod [] opts [].

(** db_mongoc.cpp:336-370 RemoveFile: every file found is removed. *)
Definition RemoveFile (st : list gfile) (name : bytes) (opts : smap bytes) : outcome (list gfile) :=
  let* q := query opts in Ok (filter (fun f => negb (matches name q f)) st).

(** db_mongoc.cpp:372-389 GetFileNames: appended to the given names. *)
Definition GetFileNames (st : list gfile) (names : list bytes) : list bytes := names ++ map gf_name st.

(** db_mongoc.cpp:442-471 WriteStreamData. The driver reads [length] bytes; a
    negative length is turned into a very large one. *)
Definition WriteStreamData (saved : bool) (st : list gfile) (name : bytes) (buf : option bytes) (length : Z) (meta : bson)
    : outcome (bool * list gfile) :=
  let* data := (if length =? 0 then Ok []
                else let* b := deref buf in
                     if (length <? 0) || (Z.of_nat (List.length b) <? length) then UB
                     else Ok (firstn (Z.to_nat length) b)) in
  if saved then Ok (true, st ++ [mkGfile name meta data]) else Ok (false, st).

(** data_raster.hpp:1065-1073: at most [n] attempts. *)
Fixpoint write_tries (n : nat) (saved : nat -> bool) (st : list gfile) (name : bytes) (buf : option bytes) (length : Z) (meta : bson)
    : outcome (bool * list gfile) :=
  match n with
  | O => Ok (false, st)
  | S k => let* w := WriteStreamData (saved k) st name buf length meta in
           if fst w then Ok w else write_tries k saved (snd w) name buf length meta
  end.

(** data_raster.hpp:1001-1011: one header entry as metadata. *)
Definition header_field (kv : bytes * f64) : outcome (bytes * bson_value) :=
  if negb (StringMatch K_NODATA (fst kv)) && is_whole (snd kv) then
    let* z := f_int (snd kv) in Ok (fst kv, BInt32 z)
  else Ok (fst kv, BDouble (snd kv)).
(** data_raster.hpp:1001-1011. *)
Definition header_fields (h : smap f64) : outcome bson :=
  ofold (fun acc kv => let* f := header_field kv in Ok (acc ++ [f])) h [].

(** data_raster.hpp:1021-1062: the types values can be converted to. *)
Definition convertible (t : rdt) : bool :=
  match t with
  | RDT_UInt8 | RDT_Int8 | RDT_UInt16 | RDT_Int16 | RDT_UInt32 | RDT_Int32 | RDT_Float | RDT_Double => true
  | _ => false
  end.
(** Comparison of enumerators (data_raster.hpp:1015). *)
Definition rdt_eqb (a b : rdt) : bool := beqb (RasterDataTypeToString a) (RasterDataTypeToString b).

(** data_raster.hpp:1012-1062: the buffer and its length in bytes. Converting
    from a null pointer leaves a new array uninitialised; writing it out is taken
    as undefined. *)
Definition gridfs_stream (s t : rdt) (values : option (list num)) (n : Z) : outcome (option bytes * Z) :=
  if rdt_eqb t s then Ok (option_map (flat_map (encode s)) values, n * size_of s)
  else if convertible t then
    let* new := (match values with
                 | Some vs => convert_array t n vs
                 | None => if n =? 0 then Ok [] else UB
                 end) in
    Ok (Some (flat_map (encode t) new), n * size_of t)
  else Ok (None, -1).

(** data_raster.hpp:989-1078 WriteStreamDataAsGridfs, for cells of type [s]. *)
Definition WriteStreamDataAsGridfs (s : rdt) (saved : nat -> bool) (st : list gfile) (name : bytes) (h : smap f64)
    (values : option (list num)) (n : Z) (opts : smap bytes) : outcome (bool * list gfile) :=
  let copied := CopyMap opts [] in
  let curopts := match lookup copied K_OUTTYPE with
                 | None => UpdateMap copied K_OUTTYPE (RasterDataTypeToString s)
                 | Some _ => copied
                 end in
  let* st1 := RemoveFile st name curopts in
  let* doc := header_fields h in
  let* text := at_get curopts K_OUTTYPE in
  let* b := gridfs_stream s (StringToRasterDataType text) values n in
  let* meta := AppendStringOptionsToBson strtod doc curopts [] in
  write_tries 4 saved st1 name (fst b) (snd b) meta.

(** data_raster.hpp:886-899: the metadata are distributed to the two maps. *)
Definition read_field (hs : smap f64 * smap bytes) (kv : bytes * bson_value) : smap f64 * smap bytes :=
  let (h, s) := hs in
  match lookup h (fst kv) with
  | Some _ => (match GetNumeric_dbl strtod (snd kv) with Some x => assign h (fst kv) x | None => h end, s)
  | None => (h, UpdateMap s (fst kv) (GetStringFromBsonIterator g6 (snd kv)))
  end.
(** data_raster.hpp:884-895. *)
Definition read_meta (m : bson) (h : smap f64) (s : smap bytes) : smap f64 * smap bytes := fold_left read_field m (h, s).

(** Element [i] of the buffer taken as an array of type [t]. data_raster.hpp:919-968. *)
Definition cell_at (t : rdt) (b : bytes) (i : Z) : outcome num :=
  let w := size_of t in
  if (0 <=? i) && ((i + 1) * w <=? Z.of_nat (List.length b))
  then Ok (decode t (firstn (Z.to_nat w) (skipn (Z.to_nat (i * w)) b))) else UB.
(** data_raster.hpp:919-968. *)
Definition cells_at (t : rdt) (b : bytes) (n : Z) : outcome (list num) :=
  ofold (fun acc i => let* v := cell_at t b i in Ok (acc ++ [v])) (zseq n) [].

Section Found.
(** Which of several matching files the driver finds. db_mongoc.cpp:308-334. *)
Variable pick : list gfile -> option gfile.

(** db_mongoc.cpp:308-334 GetFile. *)
Definition GetFile (st : list gfile) (name : bytes) (opts : smap bytes) : outcome (option gfile) :=
  let* q := query opts in Ok (pick (filter (matches name q) st)).

(** data_raster.hpp:870-976 ReadGridFsFile into a null pointer, for cells of type
    [s]: the returned flag, the two maps, the values; db_mongoc.cpp:391-409
    GetFileMetadata and 411-440 GetStreamData. [length / value_count] is a signed
    division; a negative quotient is no size. *)
Definition ReadGridFsFile (s : rdt) (st : list gfile) (name : bytes) (h : smap f64) (hs : smap bytes) (opts : smap bytes)
    : outcome (bool * smap f64 * smap bytes * option (list num)) :=
  let* found := GetFile st name opts in
  match found with
  | None => Ok (false, h, hs, None)
  | Some f =>
      let (h1, hs1) := read_meta (gf_meta f) h hs in
      let* rows_d := at_get h1 K_NROWS in
      let* rows := f_int rows_d in
      let* cols_d := at_get h1 K_NCOLS in
      let* cols := f_int cols_d in
      let* lyrs_d := at_get h1 K_LAYERS in
      let* lyrs := f_int lyrs_d in
      let* cells_d := at_get h1 K_CELLSNUM in
      let* cells := f_int cells_d in
      if (rows <? 0) || (cols <? 0) || (lyrs <? 0) then Ok (false, h1, hs1, None)
      else
        let* count := imul cells lyrs in
        if count =? 0 then UB
        else
          let size := Z.quot (Z.of_nat (List.length (gf_data f))) count in
          let t := RasterDataTypeInOptionals hs1 in
          match t with
          | RDT_Unknown => Ok (false, h1, hs1, None)
          | _ =>
              if size =? size_of t then
                let* vs := cells_at t (gf_data f) count in
                let* ws := convert_array s count vs in
                Ok (true, h1, hs1, Some ws)
              else Ok (false, h1, hs1, None)
          end
  end.

(** ** Raster objects *)

(** The exact value of a header number; infinities and NaN are not represented.
    For the members of RasterModel (data_raster.hpp:1952-1999). *)
Definition q_of (x : f64) : Q :=
  match x with
  | B754_finite s m (Zneg e) _ => SpecFloat.cond_Zopp s (Zpos m) # (2 ^ e)
  | B754_finite s m e _ => inject_Z (SpecFloat.cond_Zopp s (Zpos m) * 2 ^ e)
  | _ => 0%Q
  end.

(** data_raster.hpp:104 HEADER_INC_NODATA. *)
Definition K_INCNODATA := str "INCLUDE_NODATA".

(** utils_math.h:140-143. *)
Variable feq : num -> num -> bool.      (* FloatEqual on cells *)

(** data_raster.hpp:3312-3332: a full size array with the cells in their places;
    element [n_lyrs * (row * n_cols + col) + k] is layer [k]. *)
Definition full_values (r : raster num) (cols full : Z) (pos : option (list (Z * Z))) : outcome (option (list num)) :=
  if r_is2d r then
    let* n := imul (r_nlyrs r) full in
    ofold (fun buf i =>
      let* p := deref pos in
      let* rc := aget p i in
      ofold (fun buf k =>
        let* a := deref buf in
        let* v := read_cell r i (k + 1) in
        let* a' := aset a (r_nlyrs r * (fst rc * cols + snd rc) + k) v in Ok (Some a')) (zseq (r_nlyrs r)) buf)
      (zseq (r_ncells r)) (init1d None n (r_nodata r))
  else
    ofold (fun buf i =>
      let* p := deref pos in
      let* rc := aget p i in
      let* a := deref buf in
      let* v := read_cell r i 1 in
      let* a' := aset a (fst rc * cols + snd rc) v in Ok (Some a'))
      (zseq (r_ncells r)) (init1d None full (r_nodata r)).

(** data_raster.hpp:3277-3282 and 3298-3302: the options of the object brought up
    to date. *)
Definition output_options (s : rdt) (own opts : smap bytes) (include : bool) : smap bytes :=
  let o1 := CopyMap opts own in
  let o2 := match lookup o1 K_OUTTYPE with
            | None => UpdateMap o1 K_OUTTYPE (RasterDataTypeToString s)
            | Some t => if StringMatch (str "Unknown") t then UpdateMap o1 K_OUTTYPE (RasterDataTypeToString s) else o1
            end in
  UpdateMap o2 K_INCNODATA (if include then str "TRUE" else str "FALSE").

(** data_raster.hpp:3269-3346 OutputToMongoDB with out_origin, on a raster of
    cells of type [s] without mask: returned flag, bucket, raster and options
    afterwards. [h] is the header but for CELLSNUM, which is a member of [r];
    [ord]: order of the parallel loop of SetCalcPositions. The rows of a
    two-dimensional array lie one after the other. *)
Definition OutputToMongoDB (s : rdt) (ord : list nat) (saved : nat -> bool) (st : list gfile) (h : smap f64) (own : smap bytes)
    (r : raster num) (core filename : bytes) (opts : smap bytes) (include : bool)
    : outcome (bool * list gfile * raster num * smap bytes) :=
  let expand := (negb (isnull (r_pos r)) || negb (isnull (r_posidx r))) && include in
  let* a := (if expand then GetRasterPositionData feq ord r else Ok (r, (0, None))) in
  let* r1 := (if (isnull (r_pos (fst a)) || isnull (r_posidx (fst a))) && negb include
              then let* c := SetCalcPositions feq ord (fst a) in
                   let* g := GetRasterPositionData feq ord (fst c) in Ok (fst g)
              else Ok (fst a)) in
  let own' := output_options s own opts include in
  let* rows_d := at_get h K_NROWS in
  let* rows := f_int rows_d in
  let* cols_d := at_get h K_NCOLS in
  let* cols := f_int cols_d in
  let* full := imul rows cols in
  let* dn := (if expand then
                let* v := full_values r1 cols full (snd (snd a)) in
                if r_is2d r1 then let* n := imul (r_nlyrs r1) full in Ok (v, n) else Ok (v, full)
              else if r_is2d r1 then
                let* d := deref (r_data2d r1) in
                match d with
                | [] => UB
                | _ => let* n := imul (r_nlyrs r1) (r_ncells r1) in Ok (Some (concat d), n)
                end
              else Ok (r_data r1, r_ncells r1)) in
  let h1 := UpdateMap (CopyMap h []) K_CELLSNUM (of_int (if include then full else r_hcells r1)) in
  let* w := WriteStreamDataAsGridfs s saved st (match filename with [] => core | _ => filename end) h1 (fst dn) (snd dn) own' in
  Ok (fst w, snd w, r1, own').

(** What is used of a mask: GetValidNumber, and both GetRasterPositionData
    (data_raster.hpp:1623, 2641-2674); and masking with it
    (MaskAndCalculateValidPosition, MaskModel.v). *)
Record mask_view := mkMask {
  mk_valid : Z; mk_count : Z; mk_pos : option (list (Z * Z)); mk_idx : option (list Z);
  mk_apply : raster num -> outcome (raster num * Z)
}.

(** data_raster.hpp:1935-1939 CheckDefaultValue, [default_value_] taken as a cell. *)
Definition checked_default (default nd : num) (nodata_value : num) : num :=
  if feq default nodata_value && negb (feq nd nodata_value) then nd else default.

(** data_raster.hpp:3576-3613: cell [i] of the object from the array read. *)
Definition gather (data : list num) (lyrs n : Z) (idx : option (list Z)) : outcome (list (list num)) :=
  ofold (fun acc i =>
    let* t := (match idx with None => Ok i | Some ix => aget ix i end) in
    let* row := ofold (fun row j => let* v := aget data (t * lyrs + j) in Ok (row ++ [v])) (zseq lyrs) [] in
    Ok (acc ++ [row])) (zseq n) [].

(** data_raster.hpp:3511-3620 ReadFromMongoDB by an object that has read nothing
    yet: returned flag, header, options and raster. The mask has no subsets
    (3566-3577 not modelled). [dflt] is the default value as a cell and
    [nv] the constant NODATA_VALUE as a cell. On failure the raster is of no
    interest. *)
Definition ReadFromMongoDB (s : rdt) (ord : list nat) (st : list gfile) (name : bytes) (calc : bool) (mask : option mask_view)
    (maskext : bool) (dflt nv : num) (opts : smap bytes)
    : outcome (bool * smap f64 * smap bytes * option (raster num)) :=
  let own := CopyMap opts InitialStrHeader in
  let h0 := map (fun kv => (fst kv, of_int (snd kv))) InitialHeader in
  let sought := CopyMap opts [] in
  let sought := match lookup opts K_INCNODATA with Some _ => sought | None => UpdateMap sought K_INCNODATA (str "TRUE") end in
  let* x := ReadGridFsFile s st name h0 InitialStrHeader sought in
  let '(ok, h, hs, data) := x in
  if negb ok then Ok (false, h0, own, None)
  else
    let own := CopyMap hs own in
    let* inc := at_get own K_INCNODATA in
    let include := negb (StringMatch inc (str "FALSE")) in
    let* rows_d := at_get h K_NROWS in
    let* rows := f_int rows_d in
    let* cols_d := at_get h K_NCOLS in
    let* cols := f_int cols_d in
    let* lyrs_d := at_get h K_LAYERS in
    let* lyrs := f_int lyrs_d in
    let* full := imul rows cols in
    let* nd_d := at_get h K_NODATA in
    let* nd := cvt s (VD nd_d) in
    let* cells_d := at_get h K_CELLSNUM in
    let* cells := f_int cells_d in
    let* xll := at_get h K_XLL in
    let* yll := at_get h K_YLL in
    let* cs := at_get h K_CELLSIZE in
    if include && negb (cells =? full) then Ok (false, h, own, None)
    else
      let calc1 := calc || negb (cells =? full) in
      let from_mask := match mask with
                       | Some m => calc1 && maskext && (cells =? mk_valid m)
                       | None => false
                       end in
      let '(n, pos, idx) := match mask with
                            | Some m => if from_mask then (mk_count m, mk_pos m, mk_idx m) else (cells, None, None)
                            | None => (cells, None, None)
                            end in
      if negb include && (isnull pos || isnull idx) then Ok (false, h, own, None)
      else
        let* d := deref data in
        let use_idx := if include && from_mask then idx else None in
        let* rows_read := (if (lyrs =? 1) && negb (include && from_mask) then Ok [] else gather d lyrs n use_idx) in
        let ext := match mask with Some _ => maskext | None => false end in
        let r := mkRaster rows cols (q_of xll) (q_of yll) (q_of cs) nd cells lyrs n lyrs nd (checked_default dflt nd nv)
                   (negb (lyrs =? 1))
                   (if lyrs =? 1 then (if include && from_mask then (if n <=? 0 then None else Some (concat rows_read)) else Some d) else None)
                   (if lyrs =? 1 then None else if n <? 0 then None else Some rows_read)
                   pos idx calc1 false ext true in
        if include && negb from_mask then
          let* m := (match mask with None => CalcNoMask feq ord r | Some m => mk_apply m r end) in
          Ok (0 <=? snd m, h, own, Some (fst m))
        else Ok (true, h, own, Some r).
End Found.
