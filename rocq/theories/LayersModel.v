(** Reading several files as the layers of one raster (src/data_raster.hpp:
    ReadFromFile, ReadFromFiles, ConstructFromSingleFile,
    AddOtherLayerRasterData), by an object that has read nothing yet and without
    mask. Cells are [num]s of the type [s]. Reading one file is a parameter: what
    ReadAscFile or ReadRasterFileByGdal (AscModel.v, GdalModel.v) gives for the
    name, starting from a header and a null array: returned flag, header, values.
    Proof-free. *)
From Coq Require Import ZArith QArith Ascii String List Bool.
From Flocq Require Import BinarySingleNaN.
From Verif Require Import Base StrModel MapModel BasicModel FloatModel TypeModel CoordFloatModel FsModel RasterModel CopyModel NumModel AscModel CellModel GridfsModel.
Import ListNotations.
Open Scope Z_scope.
Open Scope outcome_scope.

(** utils_math.h:140-143 FloatEqual on two cells. *)
Definition cells_equal (a b : num) : bool := FloatEqual (as_double a) (as_double b).

(** What reading a file gives (data_raster.hpp:215-216, 359-361). *)
Definition layer_read : Type := bool * smap f64 * option (list num).

(** The object afterwards: header, members, [core_name_], [full_path_].
    data_raster.hpp:1952-1999. *)
Record layered := mkLayered { ly_header : smap f64; ly_raster : raster num; ly_core : bytes; ly_path : bytes }.

(** data_raster.hpp:1628-1656 GetRows, GetCols, GetCellWidth, GetXllCenter and
    GetYllCenter of a header; the entries XLLCORNER and YLLCORNER, looked for
    where the centre is missing, are never there: [UB] stands for that case. *)
Definition centre (h : smap f64) (k : bytes) : outcome f64 := deref (lookup h k).
(** data_raster.hpp:1628-1656. *)
Definition own_geo (h : smap f64) : outcome fgeo :=
  let* x := centre h K_XLL in
  let* y := centre h K_YLL in
  let* cs := at_get h K_CELLSIZE in
  let* rows_d := at_get h K_NROWS in
  let* rows := f_int rows_d in
  let* cols_d := at_get h K_NCOLS in
  let* cols := f_int cols_d in
  Ok (mkFgeo rows cols x y cs).

(** data_raster.hpp:3784-3789: the numbers GetPositionByCoordinate takes from the
    header it is given. *)
Definition layer_geo (h : smap f64) : outcome fgeo :=
  let* x := at_get h K_XLL in
  let* y := at_get h K_YLL in
  let* cs := at_get h K_CELLSIZE in
  let* rows_d := at_get h K_NROWS in
  let* rows := f_int rows_d in
  let* cols_d := at_get h K_NCOLS in
  let* cols := f_int cols_d in
  Ok (mkFgeo rows cols x y cs).

(** [raster_2d_[i][k] = v]. data_raster.hpp:3623-3640. *)
Definition put (d : list (list num)) (i k : Z) (v : num) : outcome (list (list num)) :=
  let* c := aget d i in
  let* c' := aset c k v in
  aset d i c'.

(** data_raster.hpp:3623-3640 AddOtherLayerRasterData: the array afterwards.
    [own] is the header of the object, [nd] its NoData value. *)
Definition AddOtherLayer (own : smap f64) (nd : num) (row col cell lyr : Z) (h : smap f64) (data : option (list num))
    (d : list (list num)) : outcome (list (list num)) :=
  let* cols_d := at_get h K_NCOLS in
  let* cols := f_int cols_d in
  let* lnd := at_get h K_NODATA in
  let* g := own_geo own in
  let xy := fCoordinate g row col in
  let* lg := layer_geo h in
  let* p := fPositionByCoordinate lg (fst xy) (snd xy) in
  if (fst p =? -1) || (snd p =? -1) then put d cell lyr nd
  else
    let* m := imul (fst p) cols in
    let* vs := deref data in
    let* v := aget vs (m + snd p) in
    put d cell lyr (if FloatEqual (as_double v) lnd then nd else v).

(** data_raster.hpp:3478-3488, iteration [i] over the positions. *)
Definition by_position (own : smap f64) (nd : num) (ix : option (list Z)) (cols lyr : Z) (h : smap f64) (data : option (list num))
    (d : list (list num)) (i : nat) : outcome (list (list num)) :=
  let* ix := deref ix in
  let* k := aget ix (Z.of_nat i) in
  AddOtherLayer own nd (Z.quot k cols) (Z.rem k cols) (Z.of_nat i) lyr h data d.

(** data_raster.hpp:3490-3501, iteration [i] over the rows. *)
Definition by_row (own : smap f64) (nd : num) (cols lyr : Z) (h : smap f64) (data : option (list num))
    (d : list (list num)) (i : nat) : outcome (list (list num)) :=
  ofold (fun d j =>
    let cell := Z.of_nat i * cols + j in
    let* c := aget d cell in
    let* v := aget c 0 in
    if cells_equal nd v then put d cell lyr nd
    else AddOtherLayer own nd (Z.of_nat i) j cell lyr h data d) (zseq cols) d.

Section Layers.
(** External or fixed for ReadFromFiles (data_raster.hpp:3431-3530). *)
Variable o : os.                                   (* answers of the operating system *)
(** External or fixed for ReadFromFiles (data_raster.hpp:3431-3530). *)
Variable exist : bytes -> bool.                    (* FileExists *)
(** External or fixed for ReadFromFiles (data_raster.hpp:3431-3530). *)
Variable read : bytes -> smap f64 -> outcome layer_read.  (* reading the file of that name, from a header *)
(** External or fixed for ReadFromFiles (data_raster.hpp:3431-3530). *)
Variable s : rdt.                                  (* the type of the cells *)

(** data_raster.hpp:2288-2325 ConstructFromSingleFile with [lyrs] in [n_lyrs_]:
    returned flag, header, members. The names are set by ReadFromFiles; the output
    type and the options are left out. [dflt]: the default value as a cell, [nv]:
    the constant NODATA_VALUE as a cell. [ord]: order of the parallel loop. *)
Definition ConstructFromSingleFile (ord : list nat) (file : bytes) (calc : bool) (dflt nv : num) (lyrs : Z)
    : outcome (bool * smap f64 * option (raster num)) :=
  let h0 := map (fun kv => (fst kv, of_int (snd kv))) InitialHeader in
  let* got := read file h0 in
  let '(ok, h, data) := got in
  let* nd_d := at_get h K_NODATA in
  let* nd := cvt s (VD nd_d) in
  if negb ok then Ok (false, h, None)
  else
    let* g := own_geo h in
    let* full := imul (fg_rows g) (fg_cols g) in
    let* cells_d := at_get h K_CELLSNUM in
    let* cells := f_int cells_d in
    let* hl_d := at_get h K_LAYERS in
    let* hl := f_int hl_d in
    let r := mkRaster (fg_rows g) (fg_cols g) (q_of (fg_xll g)) (q_of (fg_yll g)) (q_of (fg_cs g)) nd cells hl
               (-1) (if lyrs <? 0 then 1 else lyrs) nd (checked_default cells_equal dflt nd nv) false data None
               None None calc false false true in
    let* m := CalcNoMask cells_equal ord r in
    Ok (0 <=? snd m, UpdateMap h K_CELLSNUM (of_int (r_ncells (fst m))), Some (fst m)).

(** data_raster.hpp:3417-3429 ReadFromFile with [lyrs] in [n_lyrs_]. *)
Definition ReadFromFile (ord : list nat) (file : bytes) (calc : bool) (dflt nv : num) (lyrs : Z) : outcome (bool * option layered) :=
  if negb (exist file) then Ok (false, None)
  else
    let* c := ConstructFromSingleFile ord file calc dflt nv lyrs in
    let '(ok, h, r) := c in
    Ok (ok, option_map (fun r => mkLayered h r (GetCoreFileName o file) file) r).

(** data_raster.hpp:3449-3454: the core name up to its last underscore. *)
Definition cut_core (core : bytes) : bytes :=
  match find_last "_"%char core with None => core | Some n => firstn n core end.

(** data_raster.hpp:3463-3504: the layers after the first. [orders k]: order of
    the parallel loop for file number [k]. *)
Definition add_layers (orders : nat -> list nat) (own : smap f64) (r : raster num) (rows cols : Z) (files : list bytes)
    (d : list (list num)) : outcome (list (list num)) :=
  let* out := ofold (fun (st : nat * list (list num)) file =>
    let k := fst st in
    let* got := read file [] in
    let '(_, h, data) := got in
    let* d' := ofold (if negb (isnull (r_pos r)) || negb (isnull (r_posidx r))
                      then by_position own (r_nodata r) (r_posidx r) cols (Z.of_nat k) h data
                      else by_row own (r_nodata r) cols (Z.of_nat k) h data) (orders k) (snd st) in
    Ok (S k, d')) files (1%nat, d) in
  Ok (snd out).

(** data_raster.hpp:3431-3506 ReadFromFiles: returned flag and the object, if it
    has read its files. [order1]: order of the loop of
    CalculateValidPositionsFromGridData; [orders 0]: of the loop 3459-3462. *)
Definition ReadFromFiles (order1 : list nat) (orders : nat -> list nat) (files : list bytes) (calc : bool) (dflt nv : num)
    : outcome (bool * option layered) :=
  if negb (FilesExist exist files) then Ok (false, None)
  else
    let lyrs := Z.of_nat (List.length files) in
    match files with
    | [] => Ok (false, None)
    | [file] => ReadFromFile order1 file calc dflt nv lyrs
    | file :: others =>
        let* c := ConstructFromSingleFile order1 file calc dflt nv lyrs in
        match c with
        | (true, h, Some r) =>
            let core := cut_core (GetCoreFileName o file) in
            let path := GetPathFromFullName o file ++ core ++ str "_%d." ++ GetSuffix o file in
            let* d := deref (init2d None (r_ncells r) (repeat (r_nodata r) (Z.to_nat lyrs))) in
            let* d1 := ofold (fun d i => let* vs := deref (r_data r) in let* v := aget vs (Z.of_nat i) in put d (Z.of_nat i) 0 v)
                         (orders 0%nat) d in
            let* g := own_geo h in
            let* d2 := add_layers orders h r (fg_rows g) (fg_cols g) others d1 in
            let r2 := mkRaster (r_rows r) (r_cols r) (r_xll r) (r_yll r) (r_cs r) (r_hnodata r) (r_hcells r) lyrs
                        (r_ncells r) (r_nlyrs r) (r_nodata r) (r_default r) true None (Some d2)
                        (r_pos r) (r_posidx r) (r_calc r) (r_store r) (r_maskext r) (r_init r) in
            Ok (true, Some (mkLayered (UpdateMap h K_LAYERS (of_int lyrs)) r2 core path))
        | _ => Ok (false, None)
        end
    end.
End Layers.
