(** Vocabulary for rasters in GridFS. *)
From Coq Require Import ZArith Reals Ascii String List Bool.
From Flocq Require Import Core BinarySingleNaN.
From Verif Require Import Base StrModel MapModel BasicModel FloatModel MongoModel NumModel RasterModel CellModel CellSpec GridfsModel.
Import ListNotations.
Open Scope Z_scope.

(** The driver finds a file among those matching, if there is one. *)
Definition finds (pick : list gfile -> option gfile) : Prop :=
  forall l, match pick l with Some f => In f l | None => l = [] end.

(** Header numbers that fit the metadata: a whole number must be an int, except
    for the NoData value. *)
Definition whole (x : f64) : Prop := is_finite x = true /\ exists z, B2R x = IZR z.
Definition fits_meta (k : bytes) (x : f64) : Prop :=
  k = str "NODATA_VALUE" \/
  is_finite x = true /\ (whole x -> (IZR INT_MIN <= B2R x <= IZR INT_MAX)%R).

(** Equal numbers: the same, or zeros of different sign. *)
Definition same_number (x y : f64) : Prop := x = y \/ is_finite x = true /\ is_finite y = true /\ B2R x = B2R y.

(** Option texts that are not empty numbers in disguise: empty, not a number, or
    the usual text of an int. *)
Definition plain_option (v : bytes) : Prop :=
  v = [] \/ snd (strtod v) <> length v \/ exists z, in_int z /\ v = itoa z.

(** A header and options that can be stored together. *)
Definition storable (h : smap f64) (opts : smap bytes) : Prop :=
  NoDup (map fst h) /\ NoDup (map fst opts) /\
  (forall k, In k (map fst h) -> In k header_keys) /\ (forall k, In k (map fst opts) -> ~ In k header_keys) /\
  (forall k x, In (k, x) h -> fits_meta k x) /\ (forall k v, In (k, v) opts -> plain_option v).

(** The header has the numbers. *)
Definition sizes (h : smap f64) (rows cols lyrs cells : Z) : Prop :=
  lookup h (str "NROWS") = Some (of_int rows) /\ lookup h (str "NCOLS") = Some (of_int cols) /\
  lookup h (str "LAYERS") = Some (of_int lyrs) /\ lookup h (str "CELLSNUM") = Some (of_int cells) /\
  in_int rows /\ in_int cols /\ in_int lyrs /\ in_int cells.

(** One of the four attempts to save succeeds. *)
Definition saves (saved : nat -> bool) : Prop := exists k, (k < 4)%nat /\ saved k = true.

(** The values as another type; values of the type itself stay. *)
Definition converted (s t : rdt) (vs ws : list num) : Prop :=
  t = s /\ ws = vs \/
  t <> s /\ t <> RDT_Unknown /\ t <> RDT_UInt64 /\ t <> RDT_Int64 /\ Forall2 (fun v w => cvt t v = Ok w) vs ws.

(** The header a reader starts with: the eight entries. *)
Definition reader_header (h : smap f64) : Prop := forall k, In k (map fst h) <-> In k header_keys.

(** What is read agrees with what has been written. *)
Definition header_back (h h' : smap f64) : Prop :=
  forall k x, lookup h k = Some x -> exists y, lookup h' k = Some y /\ same_number x y.
Definition options_back (opts hs' : smap bytes) : Prop :=
  forall k v, lookup opts k = Some v -> lookup hs' k = Some v.

(** The options agree with what is asked for. *)
Definition agrees (asked opts : smap bytes) : Prop :=
  NoDup (map fst asked) /\ forall k v, In (k, v) asked -> lookup opts k = Some v.

(** No file of that name. *)
Definition unused (st : list gfile) (name : bytes) : Prop := forall f, In f st -> gf_name f <> name.

(** The type values are to be stored as: the one asked for, or their own. *)
Definition target (s : rdt) (opts : smap bytes) (t : rdt) : Prop :=
  lookup opts (str "DATATYPE_OUT") = None /\ t = s \/
  exists w, lookup opts (str "DATATYPE_OUT") = Some w /\ StringToRasterDataType w = t.

(** All options are asked for. *)
Definition covers (asked opts : smap bytes) : Prop := forall k v, lookup opts k = Some v -> lookup asked k = Some v.

(** One file of that name, up to identical copies. *)
Definition sole (st : list gfile) (name : bytes) (f : gfile) : Prop :=
  In f st /\ gf_name f = name /\ forall g, In g st -> gf_name g = name -> g = f.

(** Metadata giving the sizes and a type. *)
Definition describes (f : gfile) (rows cols lyrs cells : Z) (t : rdt) : Prop :=
  NoDup (map fst (gf_meta f)) /\
  In (str "NROWS", BInt32 rows) (gf_meta f) /\ In (str "NCOLS", BInt32 cols) (gf_meta f) /\
  In (str "LAYERS", BInt32 lyrs) (gf_meta f) /\ In (str "CELLSNUM", BInt32 cells) (gf_meta f) /\
  in_int rows /\ in_int cols /\ in_int lyrs /\ in_int cells /\
  exists w, In (str "DATATYPE_OUT", BUtf8 w) (gf_meta f) /\ StringToRasterDataType w = t.

(** Type texts that values of type [s] cannot be stored under. *)
Definition no_store (s : rdt) (w : bytes) : Prop :=
  let t := StringToRasterDataType w in t <> s /\ (t = RDT_Unknown \/ t = RDT_UInt64 \/ t = RDT_Int64).

(** An option in the metadata: text, but the usual text of an int is stored as a
    number. A file labelled with the options has them all in its metadata. *)
Definition stored_option (v : bytes) (w : bson_value) : Prop :=
  (forall z, in_int z -> v <> itoa z) /\ w = BUtf8 v \/ exists z, in_int z /\ v = itoa z /\ w = BInt32 z.
Definition labelled (f : gfile) (opts : smap bytes) : Prop :=
  forall k v, lookup opts k = Some v -> plain_option v /\ exists w, bson_find (gf_meta f) k = Some w /\ stored_option v w.

(** ** Raster objects *)

(** The values of a raster cell by cell, the layers of a cell side by side. *)
Definition cell_major {T} (r : raster T) (vs : list T) : Prop :=
  Z.of_nat (length vs) = r_nlyrs r * (r_rows r * r_cols r) /\
  forall i j lyr, 0 <= i < r_rows r -> 0 <= j < r_cols r -> 1 <= lyr <= r_nlyrs r ->
    exists v, nth_error vs (Z.to_nat (r_nlyrs r * (i * r_cols r + j) + (lyr - 1))) = Some v /\ GetValue r i j lyr = Ok v.

(** An option of the object, unless the call gives another. *)
Definition effective (own opts : smap bytes) (k : bytes) : option bytes :=
  match lookup opts k with Some v => Some v | None => lookup own k end.

(** The cells are stored as they are: no type is set, or theirs, or "Unknown". *)
Definition stores_own_type (s : rdt) (own opts : smap bytes) : Prop :=
  forall w, effective own opts (str "DATATYPE_OUT") = Some w -> StringToRasterDataType w = s \/ w = str "Unknown".

(** The header of the object, but for the number of cells. *)
Definition object_header {T} (h : smap f64) (r : raster T) (x y cs nd : f64) : Prop :=
  NoDup (map fst h) /\ (forall k, In k (map fst h) -> In k header_keys) /\
  (forall k v, In (k, v) h -> k = str "CELLSNUM" \/ fits_meta k v) /\
  lookup h (str "NROWS") = Some (of_int (r_rows r)) /\ lookup h (str "NCOLS") = Some (of_int (r_cols r)) /\
  lookup h (str "LAYERS") = Some (of_int (r_nlyrs r)) /\
  lookup h (str "XLLCENTER") = Some x /\ lookup h (str "YLLCENTER") = Some y /\
  lookup h (str "CELLSIZE") = Some cs /\ lookup h (str "NODATA_VALUE") = Some nd.

(** Options that can be stored beside a header. *)
Definition object_options (o : smap bytes) : Prop :=
  NoDup (map fst o) /\ (forall k, In k (map fst o) -> ~ In k header_keys) /\ (forall k v, In (k, v) o -> plain_option v).

(** Same numbers: rows, columns, layers, NoData, position. *)
Definition same_grid {T} (r r' : raster T) : Prop :=
  r_rows r' = r_rows r /\ r_cols r' = r_cols r /\ r_nlyrs r' = r_nlyrs r /\ r_nodata r' = r_nodata r /\
  forall i j lyr, 0 <= i < r_rows r -> 0 <= j < r_cols r -> 1 <= lyr <= r_nlyrs r -> GetValue r' i j lyr = GetValue r i j lyr.

(** A mask whose valid cells are [ix]. *)
Definition places (m : mask_view) (cols : Z) (ix : list Z) : Prop :=
  mk_valid m = Z.of_nat (length ix) /\ mk_count m = Z.of_nat (length ix) /\ mk_idx m = Some ix /\ mk_pos m = Some (map (fun k => (k / cols, k mod cols)) ix).

(** Options asked for that hold of a file without NoData cells. *)
Definition asks_valid (own opts asked : smap bytes) : Prop :=
  NoDup (map fst asked) /\ lookup asked (str "INCLUDE_NODATA") = Some (str "FALSE") /\
  forall k v, In (k, v) asked -> k <> str "INCLUDE_NODATA" -> k <> str "DATATYPE_OUT" /\ effective own opts k = Some v.
