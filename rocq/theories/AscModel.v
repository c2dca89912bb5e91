(** ASC raster files (src/data_raster.hpp, src/data_raster.cpp): the reader, the
    header writer, the writer of one grid and the writer of a raster object.

    [T] is the cell type. [show] is [ostream << setprecision(6) << v] and [cast]
    is [static_cast<T>(double)], undefined outside the range of an integer type.
    Console messages are dropped. *)
From Coq Require Import ZArith Ascii String List Bool.
From Verif Require Import Base StrModel FsModel MapModel RasterModel FloatModel CoordFloatModel TypeModel NumModel CopyModel.
Import ListNotations.
Open Scope Z_scope.
Open Scope outcome_scope.

(** [a * b] in [int]: overflow is undefined. E.g. data_raster.hpp:282, 615. *)
Definition imul (a b : Z) : outcome Z := if in_intb (a * b) then Ok (a * b) else UB.

(** data_raster.hpp:90-99, the header words. *)
Definition K_NODATA := str "NODATA_VALUE".
(** data_raster.hpp:91 HEADER_RS_XLL. *)
Definition K_XLL := str "XLLCENTER".
(** data_raster.hpp:92 HEADER_RS_YLL. *)
Definition K_YLL := str "YLLCENTER".
(** data_raster.hpp:93 HEADER_RS_XLLCOR. *)
Definition K_XLLCOR := str "XLLCORNER".
(** data_raster.hpp:94 HEADER_RS_YLLCOR. *)
Definition K_YLLCOR := str "YLLCORNER".
(** data_raster.hpp:95 HEADER_RS_NROWS. *)
Definition K_NROWS := str "NROWS".
(** data_raster.hpp:96 HEADER_RS_NCOLS. *)
Definition K_NCOLS := str "NCOLS".
(** data_raster.hpp:97 HEADER_RS_CELLSIZE. *)
Definition K_CELLSIZE := str "CELLSIZE".
(** data_raster.hpp:98 HEADER_RS_LAYERS. *)
Definition K_LAYERS := str "LAYERS".
(** data_raster.hpp:99 HEADER_RS_CELLSNUM. *)
Definition K_CELLSNUM := str "CELLSNUM".

(** The double 0.5 (data_raster.hpp:296-297). *)
Definition half : f64 := fdiv (of_int 1) (of_int 2).

(** [endl], data_raster.cpp:199-204. *)
Definition newline : bytes := ["010"%char].
(** The blank after a header word, data_raster.cpp:199-204. *)
Definition blank : bytes := [" "%char].

Section Asc.
Context {T : Type}.
(** External: [ostream << setprecision(6)] of a cell (data_raster.hpp:339). *)
Variable show : T -> bytes.
(** [static_cast<T>] of a double read (data_raster.hpp:287). *)
Variable cast : f64 -> outcome T.

(** Local variables of ReadAscFile (data_raster.hpp:223-231) and the caller's
    array [values]. *)
Record asc := mkAsc {
  a_cols : Z; a_rows : Z; a_xll : f64; a_yll : f64; a_cs : f64; a_nodata : f64;
  a_xc : bool; a_yc : bool; a_vidx : Z; a_vals : option (list T)
}.

(** data_raster.hpp:223-231 *)
Definition asc0 (values : option (list T)) : asc :=
  mkAsc (-1) (-1) MISSINGFLOAT MISSINGFLOAT (of_int (-1)) MISSINGFLOAT false false 0 values.

(** Assignments to [cols], [rows], [xll] with its flag, ...
    Assignment to local variables of data_raster.hpp:223-231. *)
Definition set_cols (s : asc) (v : Z) := mkAsc v (a_rows s) (a_xll s) (a_yll s) (a_cs s) (a_nodata s) (a_xc s) (a_yc s) (a_vidx s) (a_vals s).
(** Assignment to local variables of data_raster.hpp:223-231. *)
Definition set_rows (s : asc) (v : Z) := mkAsc (a_cols s) v (a_xll s) (a_yll s) (a_cs s) (a_nodata s) (a_xc s) (a_yc s) (a_vidx s) (a_vals s).
(** Assignment to local variables of data_raster.hpp:223-231. *)
Definition set_xll (s : asc) (v : f64) (c : bool) := mkAsc (a_cols s) (a_rows s) v (a_yll s) (a_cs s) (a_nodata s) c (a_yc s) (a_vidx s) (a_vals s).
(** Assignment to local variables of data_raster.hpp:223-231. *)
Definition set_yll (s : asc) (v : f64) (c : bool) := mkAsc (a_cols s) (a_rows s) (a_xll s) v (a_cs s) (a_nodata s) (a_xc s) c (a_vidx s) (a_vals s).
(** Assignment to local variables of data_raster.hpp:223-231. *)
Definition set_cs (s : asc) (v : f64) := mkAsc (a_cols s) (a_rows s) (a_xll s) (a_yll s) v (a_nodata s) (a_xc s) (a_yc s) (a_vidx s) (a_vals s).
(** Assignment to local variables of data_raster.hpp:223-231. *)
Definition set_nd (s : asc) (v : f64) := mkAsc (a_cols s) (a_rows s) (a_xll s) (a_yll s) (a_cs s) v (a_xc s) (a_yc s) (a_vidx s) (a_vals s).
(** Assignment to local variables of data_raster.hpp:223-231. *)
Definition set_vals (s : asc) (i : Z) (v : option (list T)) := mkAsc (a_cols s) (a_rows s) (a_xll s) (a_yll s) (a_cs s) (a_nodata s) (a_xc s) (a_yc s) i v.

(** data_raster.hpp:274-288, one token of a data line. The flag turns false when
    the function returns [false]; the array has been released then. *)
Definition put_token (st : asc * bool) (w : bytes) : outcome (asc * bool) :=
  if negb (snd st) then Ok st
  else
    let s := fst st in
    let (v, ok) := IsDouble f64 strtod w in
    if negb ok then Ok (set_vals s (a_vidx s) None, false)
    else
      let* n := imul (a_rows s) (a_cols s) in
      if a_vidx s =? n then Ok (set_vals s (a_vidx s) None, false)
      else
        let* c := cast v in
        let* a := deref (a_vals s) in
        let* a' := aset a (a_vidx s) c in
        Ok (set_vals s (a_vidx s + 1) (Some a'), true).

(** data_raster.hpp:273 with utils_array.h:331-355. *)
Definition init_values (s : asc) : outcome asc :=
  match a_vals s with
  | Some _ => Ok s
  | None =>
      let* n := imul (a_rows s) (a_cols s) in
      if n <=? 0 then Ok s
      else let* v := cast (a_nodata s) in Ok (set_vals s (a_vidx s) (init1d None n v))
  end.

(** data_raster.hpp:269-289, a data line. *)
Definition data_line (s : asc) (tokens : list bytes) : outcome (asc * bool) :=
  let* s1 := init_values s in ofold put_token tokens (s1, true).

(** The second token as an integer / a double, then [return false] if it is
    missing or not a number (e.g. data_raster.hpp:237-239, 248-251). *)
Definition int_arg (tokens : list bytes) (k : Z -> asc) (s : asc) : outcome (asc * bool) :=
  match tokens with
  | _ :: w :: _ => let (v, ok) := IsInt w in Ok (k v, ok)
  | _ => Ok (s, false)
  end.
(** data_raster.hpp:248-251 and the like. *)
Definition dbl_arg (tokens : list bytes) (k : f64 -> asc) (s : asc) : outcome (asc * bool) :=
  match tokens with
  | _ :: w :: _ => let (v, ok) := IsDouble f64 strtod w in Ok (k v, ok)
  | _ => Ok (s, false)
  end.

(** data_raster.hpp:232-290, one line of the file. *)
Definition asc_line (st : asc * bool) (line : bytes) : outcome (asc * bool) :=
  if negb (snd st) then Ok st
  else
    let s := fst st in
    let tokens := SplitString line in
    match tokens with
    | [] => Ok st
    | k :: _ =>
        if StringMatch k K_NCOLS then int_arg tokens (set_cols s) s
        else if StringMatch k K_NROWS then int_arg tokens (set_rows s) s
        else if StringMatch k K_XLL || StringMatch k K_XLLCOR then
          dbl_arg tokens (fun v => set_xll s v (StringMatch k K_XLLCOR || a_xc s)) s
        else if StringMatch k K_YLL || StringMatch k K_YLLCOR then
          dbl_arg tokens (fun v => set_yll s v (StringMatch k K_YLLCOR || a_yc s)) s
        else if StringMatch k K_CELLSIZE then dbl_arg tokens (set_cs s) s
        else if StringMatch k K_NODATA then dbl_arg tokens (set_nd s) s
        else data_line s tokens
    end.

(** data_raster.hpp:291-308, after the loop. *)
Definition asc_finish (s : asc) (header : smap f64) : outcome (bool * smap f64 * option (list T)) :=
  if (a_rows s <? 0) || (a_cols s <? 0) || flt (a_cs s) f64_zero
     || FloatEqual (a_xll s) MISSINGFLOAT || FloatEqual (a_yll s) MISSINGFLOAT
  then Ok (false, header, a_vals s)
  else
    let xll := if a_xc s then fadd (a_xll s) (fmul half (a_cs s)) else a_xll s in
    let yll := if a_yc s then fadd (a_yll s) (fmul half (a_cs s)) else a_yll s in
    let* n := imul (a_cols s) (a_rows s) in
    let h1 := UpdateMap header K_NCOLS (of_int (a_cols s)) in
    let h2 := UpdateMap h1 K_NROWS (of_int (a_rows s)) in
    let h3 := UpdateMap h2 K_XLL xll in
    let h4 := UpdateMap h3 K_YLL yll in
    let h5 := UpdateMap h4 K_CELLSIZE (a_cs s) in
    let h6 := UpdateMap h5 K_NODATA (a_nodata s) in
    let h7 := UpdateMap h6 K_LAYERS (of_int 1) in
    Ok (true, UpdateMap h7 K_CELLSNUM (of_int n), a_vals s).

(** data_raster.hpp:215-309 ReadAscFile: returned flag, header and values
    afterwards. [None]: the call does not return ([fuel] bounds the number of
    lines read). *)
Definition ReadAscFile (fuel : nat) (file : option source) (header : smap f64) (values : option (list T))
  : option (outcome (bool * smap f64 * option (list T))) :=
  match LoadPlainTextFile fuel file [] with
  | None => None
  | Some (false, _) => Some (Ok (false, header, values))
  | Some (true, lines) =>
      Some (if Z.of_nat (List.length lines) <? 7 then Ok (false, header, values)
            else
              let* st := ofold asc_line lines (asc0 values, true) in
              if snd st then asc_finish (fst st) header else Ok (false, header, a_vals (fst st)))
  end.

(** data_raster.cpp:189-207 WriteAscHeaders: the text of the file, [None] when it
    cannot be opened. The former file has been deleted. *)
Definition WriteAscHeaders (opened : bool) (header : smap f64) : outcome (option bytes) :=
  if negb opened then Ok None
  else
    let* rows_d := at_get header K_NROWS in
    let* rows := f_int rows_d in
    let* cols_d := at_get header K_NCOLS in
    let* cols := f_int cols_d in
    let* xll := at_get header K_XLL in
    let* yll := at_get header K_YLL in
    let* cs := at_get header K_CELLSIZE in
    let* nd := at_get header K_NODATA in
    Ok (Some (K_NCOLS ++ blank ++ itoa cols ++ newline ++ K_NROWS ++ blank ++ itoa rows ++ newline ++
              K_XLL ++ blank ++ g6 xll ++ newline ++ K_YLL ++ blank ++ g6 yll ++ newline ++
              K_CELLSIZE ++ blank ++ g6 cs ++ newline ++ K_NODATA ++ blank ++ g6 nd ++ newline)).

(** data_raster.hpp:325-346 WriteSingleAsc: the text of the file, [None] when the
    call returns [false]; [opened1], [opened2] tell whether the two openings
    succeed. Making the directory is left out. Cell numbers fit in [int] as
    array lengths do. *)
Definition WriteSingleAsc (opened1 opened2 : bool) (header : smap f64) (values : option (list T)) : outcome (option bytes) :=
  let* h := WriteAscHeaders opened1 header in
  match h with
  | None => Ok None
  | Some text =>
      if negb opened2 then Ok None
      else
        let* rows_d := at_get header K_NROWS in
        let* rows := f_int rows_d in
        let* cols_d := at_get header K_NCOLS in
        let* cols := f_int cols_d in
        let* body := ofold (fun acc i =>
          let* acc1 := ofold (fun acc j =>
            let* a := deref values in
            let* v := aget a (i * cols + j) in
            Ok (acc ++ show v ++ blank)) (zseq cols) acc in
          Ok (acc1 ++ newline)) (zseq rows) text in
        Ok (Some (body ++ newline))
  end.

(** data_raster.hpp:3167-3180 and 3194-3206, the cell in row [i], column [j] of
    one layer (from 1): [st] is [index] and the text so far; [missing] is what is
    printed for a cell without position. *)
Definition scan_cell (r : raster T) (direct : bool) (pos : option (list (Z * Z))) (missing : bytes) (cols lyr i : Z)
    (st : Z * bytes) (j : Z) : outcome (Z * bytes) :=
  if direct then
    let* v := read_cell r (i * cols + j) lyr in Ok (i * cols + j, snd st ++ show v ++ blank)
  else
    let index := fst st in
    if index <? r_ncells r then
      let* p := deref pos in
      let* rc := aget p index in
      if (fst rc =? i) && (snd rc =? j) then
        let* v := read_cell r index lyr in Ok (index + 1, snd st ++ show v ++ blank)
      else Ok (index, snd st ++ missing ++ blank)
    else Ok (index, snd st ++ missing ++ blank).

(** data_raster.hpp:3165-3182 and 3192-3208: all rows. *)
Definition scan_grid (r : raster T) (direct : bool) (pos : option (list (Z * Z))) (missing : bytes) (rows cols lyr : Z)
    (text : bytes) : outcome bytes :=
  let* st := ofold (fun st i =>
    let* st1 := ofold (scan_cell r direct pos missing cols lyr i) (zseq cols) st in
    Ok (fst st1, snd st1 ++ newline)) (zseq rows) (0, text) in
  Ok (snd st).

(** data_raster.hpp:3137-3210 OutputAscFile: object afterwards, returned flag and
    the files written, in order. [h] is [headers_]; [asserts] tells whether
    [assert] is compiled in (a failing one is [Throw]); [ord1], [ord2] are the
    orders of the parallel loops when positions are recalculated; [opened] tells
    which files can be opened. *)
Definition OutputAscFile (feq : T -> T -> bool) (o : os) (asserts : bool) (ord1 ord2 : list nat) (opened : bytes -> bool)
    (h : smap f64) (r : raster T) (filename : bytes) : outcome (raster T * bool * list (bytes * bytes)) :=
  let abs := GetAbsolutePath o filename in
  let direct := isnull (r_pos r) && isnull (r_posidx r) in
  let* rp := (if direct then Ok (r, None)
              else
                let* a := GetRasterPositionData feq ord1 r in
                let* b := GetRasterPositionIndex feq ord2 (fst a) in
                let pos := snd (snd a) in
                if asserts && (isnull pos || isnull (snd (snd b))) then Throw else Ok (fst b, pos)) in
  let r1 := fst rp in
  let pos := snd rp in
  let* rows_d := at_get h K_NROWS in
  let* rows := f_int rows_d in
  let* cols_d := at_get h K_NCOLS in
  let* cols := f_int cols_d in
  if r_is2d r1 then
    match GetPathFromFullName o abs with
    | [] => Ok (r1, false, [])
    | _ =>
        let* st := ofold (fun (st : bool * list (bytes * bytes)) lyr =>
          if negb (fst st) then Ok st
          else
            let name := AppendCoreFileName o abs (itoa lyr) "_" in
            let* t := WriteAscHeaders (opened name) h in
            match t with
            | None => Ok (false, snd st)
            | Some text =>
                let* body := scan_grid r1 direct pos (g6 (of_int (-9999))) rows cols (lyr + 1) text in
                Ok (true, snd st ++ [(name, body)])
            end) (zseq (r_nlyrs r1)) (true, []) in
        Ok (r1, fst st, snd st)
    end
  else
    let* t := WriteAscHeaders (opened abs) h in
    match t with
    | None => Ok (r1, false, [])
    | Some text =>
        let* body := scan_grid r1 direct pos (show (r_nodata r1)) rows cols 1 text in
        Ok (r1, true, [(abs, body)])
    end.
End Asc.
Arguments asc : clear implicits.

(** The cell types: [ostream <<] and [static_cast] for [int], [double] and
    [unsigned char] (printed as a character).
    An instance of [show] or [cast] (data_raster.hpp:287, 848). *)
Definition show_int (z : Z) : bytes := itoa z.
(** An instance of [show] or [cast] (data_raster.hpp:287, 848). *)
Definition cast_int32 (x : f64) : outcome Z := f_int x.
(** An instance of [show] or [cast] (data_raster.hpp:287, 848). *)
Definition show_double (x : f64) : bytes := g6 x.
(** An instance of [show] or [cast] (data_raster.hpp:287, 848). *)
Definition cast_double (x : f64) : outcome f64 := Ok x.
(** An instance of [show] or [cast] (data_raster.hpp:287, 848). *)
Definition show_uint8 (z : Z) : bytes := [ascii_of_nat (Z.to_nat z)].
(** An instance of [show] or [cast] (data_raster.hpp:287, 848). *)
Definition cast_uint8 (x : f64) : outcome Z := cast_int 0 255 x.
