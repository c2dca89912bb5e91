(** Core of [clsRasterData] (src/data_raster.hpp): state, validation, position
    lookup, reading and writing cells, dropping NoData cells, NoData
    replacement, reclassification.

    Simplifications valid for the whole file: [int] products such as
    [GetCols() * row + col] are exact (no 32-bit overflow); the header map is
    represented by the entries the code relies on, as record fields; status
    messages are dropped; header numbers NCOLS, NROWS, ... are the integers that
    CVT_INT yields from the stored doubles. *)
From Coq Require Import ZArith QArith List Bool.
From Verif Require Import Base.
Import ListNotations.
Open Scope Z_scope.
Open Scope outcome_scope.

(** Monadic left fold: a loop whose body may hit undefined behaviour or throw.
    E.g. data_raster.hpp:3810-3811. *)
Fixpoint ofold {A B} (f : A -> B -> outcome A) (l : list B) (a : A) : outcome A :=
  match l with
  | [] => Ok a
  | b :: t => let* a' := f a b in ofold f t a'
  end.

(** [for (int i = 0; i < n; i++)] as the list of its indices.
    E.g. data_raster.hpp:3810-3811. *)
Definition zseq (n : Z) : list Z := map Z.of_nat (seq 0 (Z.to_nat n)).

(** Dereference of a possibly null pointer. E.g. data_raster.hpp:2700-2703. *)
Definition deref {A} (p : option A) : outcome A :=
  match p with Some a => Ok a | None => UB end.

(** Members of clsRasterData (data_raster.hpp:1952-1999) used by the modelled
    functions. [r_rows] ... [r_hlyrs] are the header entries NROWS, NCOLS,
    XLLCENTER, YLLCENTER, CELLSIZE, NODATA_VALUE, CELLSNUM, LAYERS.
    [r_default] is [default_value_] already converted to [T]. *)
Record raster (T : Type) : Type := mkRaster {
  r_rows : Z; r_cols : Z;
  r_xll : Q; r_yll : Q; r_cs : Q;
  r_hnodata : T; r_hcells : Z; r_hlyrs : Z;
  r_ncells : Z; r_nlyrs : Z;
  r_nodata : T; r_default : T;
  r_is2d : bool;
  r_data : option (list T);            (* raster_, null = None *)
  r_data2d : option (list (list T));   (* raster_2d_ *)
  r_pos : option (list (Z * Z));       (* pos_data_ *)
  r_posidx : option (list Z);          (* pos_idx_ *)
  r_calc : bool; r_store : bool; r_maskext : bool; r_init : bool
}.
Arguments mkRaster {T}.
Arguments r_rows {T}. Arguments r_cols {T}. Arguments r_xll {T}. Arguments r_yll {T}.
Arguments r_cs {T}. Arguments r_hnodata {T}. Arguments r_hcells {T}. Arguments r_hlyrs {T}.
Arguments r_ncells {T}. Arguments r_nlyrs {T}. Arguments r_nodata {T}. Arguments r_default {T}.
Arguments r_is2d {T}. Arguments r_data {T}. Arguments r_data2d {T}. Arguments r_pos {T}.
Arguments r_posidx {T}. Arguments r_calc {T}. Arguments r_store {T}. Arguments r_maskext {T}.
Arguments r_init {T}.

(** Assignments to groups of members (no /repo counterpart).
    The members of data_raster.hpp:1952-1999. *)
Definition set_cells {T} (r : raster T) (d : option (list T)) (d2 : option (list (list T))) : raster T :=
  mkRaster (r_rows r) (r_cols r) (r_xll r) (r_yll r) (r_cs r) (r_hnodata r) (r_hcells r) (r_hlyrs r)
           (r_ncells r) (r_nlyrs r) (r_nodata r) (r_default r) (r_is2d r) d d2
           (r_pos r) (r_posidx r) (r_calc r) (r_store r) (r_maskext r) (r_init r).
(** The members of data_raster.hpp:1952-1999. *)
Definition set_nodata {T} (r : raster T) (nd dv hnd : T) : raster T :=
  mkRaster (r_rows r) (r_cols r) (r_xll r) (r_yll r) (r_cs r) hnd (r_hcells r) (r_hlyrs r)
           (r_ncells r) (r_nlyrs r) nd dv (r_is2d r) (r_data r) (r_data2d r)
           (r_pos r) (r_posidx r) (r_calc r) (r_store r) (r_maskext r) (r_init r).
(** The members of data_raster.hpp:1952-1999. *)
Definition set_ncells {T} (r : raster T) (n hn : Z) : raster T :=
  mkRaster (r_rows r) (r_cols r) (r_xll r) (r_yll r) (r_cs r) (r_hnodata r) hn (r_hlyrs r)
           n (r_nlyrs r) (r_nodata r) (r_default r) (r_is2d r) (r_data r) (r_data2d r)
           (r_pos r) (r_posidx r) (r_calc r) (r_store r) (r_maskext r) (r_init r).
(** The members of data_raster.hpp:1952-1999. *)
Definition set_pos {T} (r : raster T) (p : option (list (Z * Z))) (ix : option (list Z))
           (calc store : bool) : raster T :=
  mkRaster (r_rows r) (r_cols r) (r_xll r) (r_yll r) (r_cs r) (r_hnodata r) (r_hcells r) (r_hlyrs r)
           (r_ncells r) (r_nlyrs r) (r_nodata r) (r_default r) (r_is2d r) (r_data r) (r_data2d r)
           p ix calc store (r_maskext r) (r_init r).
(** The members of data_raster.hpp:1952-1999. *)
Definition set_header {T} (r : raster T) (rows cols : Z) (xll yll cs : Q) (hnd : T) (hcells hlyrs : Z) : raster T :=
  mkRaster rows cols xll yll cs hnd hcells hlyrs
           (r_ncells r) (r_nlyrs r) (r_nodata r) (r_default r) (r_is2d r) (r_data r) (r_data2d r)
           (r_pos r) (r_posidx r) (r_calc r) (r_store r) (r_maskext r) (r_init r).

Section Raster.
Context {T : Type}.
(** utils_math.h:140-143. *)
Variable feq : T -> T -> bool.          (* FloatEqual on T *)

(** data_raster.hpp:2088-2106, constructor from a 1D array. [def0] is the
    initial default value NODATA_VALUE converted to T (2036). *)
Definition FromArray (data : option (list T)) (cols rows : Z) (nodata def0 : T) (dx xll yll : Q) : raster T :=
  mkRaster rows cols xll yll dx nodata (cols * rows) 1 (cols * rows) 1 nodata def0 false
           data None None None false false false true.

(** data_raster.hpp:2118-2136, constructor from a 2D array. *)
Definition FromArray2D (data : option (list (list T))) (cols rows nlyrs : Z) (nodata def0 : T)
           (dx xll yll : Q) : raster T :=
  mkRaster rows cols xll yll dx nodata (cols * rows) nlyrs (cols * rows) nlyrs nodata def0 true
           None data None None false false false true.

(** [nullptr ==], e.g. data_raster.hpp:1765-1771. *)
Definition isnull {A} (p : option A) : bool := match p with None => true | _ => false end.

(** data_raster.hpp:1765-1771 *)
Definition ValidateRasterData (r : raster T) : bool :=
  (negb (r_is2d r) && negb (isnull (r_data r))) || (r_is2d r && negb (isnull (r_data2d r))).

(** data_raster.hpp:1776-1783 *)
Definition ValidateRowCol (r : raster T) (row col : Z) : bool :=
  negb (((row <? 0) || (r_rows r <=? row)) || ((col <? 0) || (r_cols r <=? col))).

(** data_raster.hpp:1788-1796 *)
Definition ValidateLayer (r : raster T) (lyr : Z) : bool :=
  negb ((lyr <=? 0) || (r_nlyrs r <? lyr)).

(** data_raster.hpp:1801-1807 *)
Definition ValidateIndex (r : raster T) (i : Z) : bool :=
  negb ((i <? 0) || (r_ncells r <=? i)).

(** data_raster.hpp:2560-2570, the binary search loop. [fuel] bounds the number
    of iterations; running out of it is reported as UB (proved unreachable). *)
Fixpoint search (fuel : nat) (ix : list Z) (target left right : Z) : outcome Z :=
  match fuel with
  | O => UB
  | S fuel' =>
      if left <=? right then
        let middle := left + Z.quot (right - left) 2 in
        let* v := aget ix middle in
        if target <? v then search fuel' ix target left (middle - 1)
        else if v <? target then search fuel' ix target (middle + 1) right
        else Ok middle
      else Ok (-1)
  end.

(** data_raster.hpp:2542-2571 *)
Definition GetPosition (r : raster T) (row col : Z) : outcome Z :=
  if negb (ValidateRasterData r) || negb (ValidateRowCol r row col) then Ok (-2)
  else
    let pos_idx := r_cols r * row + col in
    if negb (r_calc r) || isnull (r_pos r) || isnull (r_posidx r) then Ok pos_idx
    else
      let* ix := deref (r_posidx r) in
      search (S (Z.to_nat (r_ncells r))) ix pos_idx 0 (r_ncells r - 1).

(** Read cell [i], layer [lyr] (1-based), from raster_2d_ or raster_
    (2700-2703, 2737-2738). In data_raster.hpp:2696-2704. *)
Definition read_cell (r : raster T) (i lyr : Z) : outcome T :=
  if r_is2d r then
    let* d := deref (r_data2d r) in
    let* c := aget d i in
    aget c (lyr - 1)
  else
    let* d := deref (r_data r) in
    aget d i.

(** data_raster.hpp:2696-2704 *)
Definition GetValueByIndex (r : raster T) (i lyr : Z) : outcome T :=
  if negb (ValidateRasterData r) || negb (ValidateIndex r i) || negb (ValidateLayer r lyr)
  then Ok (r_nodata r)
  else read_cell r i lyr.

(** data_raster.hpp:2726-2739 *)
Definition GetValue (r : raster T) (row col lyr : Z) : outcome T :=
  if negb (ValidateRasterData r) || negb (ValidateRowCol r row col) || negb (ValidateLayer r lyr)
  then Ok (r_nodata r)
  else if r_calc r && (negb (isnull (r_pos r)) || negb (isnull (r_posidx r))) then
    let* i := GetPosition r row col in
    if i <? 0 then Ok (r_nodata r) else GetValueByIndex r i lyr
  else read_cell r (row * r_cols r + col) lyr.

(** data_raster.hpp:1751-1753 *)
Definition IsNoData (r : raster T) (row col lyr : Z) : outcome bool :=
  let* v := GetValue r row col lyr in Ok (feq v (r_nodata r)).

(** data_raster.hpp:2706-2723. [values] is the caller's buffer ([None] = null);
    the result is the buffer afterwards. *)
Definition GetValuesByIndex (r : raster T) (i : Z) (values : option (list T)) : outcome (option (list T)) :=
  if negb (ValidateRasterData r) || negb (ValidateIndex r i) then Ok None
  else
    let buf := match values with Some b => b | None => repeat (r_nodata r) (Z.to_nat (r_nlyrs r)) end in
    if r_is2d r then
      let* d := deref (r_data2d r) in
      let* b := ofold (fun b k => let* c := aget d i in let* v := aget c k in aset b k v) (zseq (r_nlyrs r)) buf in
      Ok (Some b)
    else
      let* d := deref (r_data r) in
      let* v := aget d i in
      let* b := aset buf 0 v in Ok (Some b).

(** data_raster.hpp:2741-2770 *)
Definition GetValues (r : raster T) (row col : Z) (values : option (list T)) : outcome (option (list T)) :=
  if negb (ValidateRasterData r) || negb (ValidateRowCol r row col) then Ok None
  else
    let buf := match values with Some b => b | None => repeat (r_nodata r) (Z.to_nat (r_nlyrs r)) end in
    if r_calc r && (negb (isnull (r_pos r)) || negb (isnull (r_posidx r))) then
      let* i := GetPosition r row col in
      if i =? -1 then
        let* b := ofold (fun b k => aset b k (r_nodata r)) (zseq (r_nlyrs r)) buf in Ok (Some b)
      else GetValuesByIndex r i (Some buf)
    else if r_is2d r then
      let* d := deref (r_data2d r) in
      let* b := ofold (fun b k => let* c := aget d (row * r_cols r + col) in
                                  let* v := aget c k in aset b k v) (zseq (r_nlyrs r)) buf in
      Ok (Some b)
    else
      let* d := deref (r_data r) in
      let* v := aget d (row * r_cols r + col) in
      let* b := aset buf 0 v in Ok (Some b).

(** Write cell [i], layer index [k] (0-based) (2796-2800). In data_raster.hpp:2786-2802. *)
Definition write_cell (r : raster T) (i k : Z) (v : T) : outcome (raster T) :=
  if r_is2d r then
    let* d := deref (r_data2d r) in
    let* c := aget d i in
    let* c' := aset c k v in
    let* d' := aset d i c' in
    Ok (set_cells r (r_data r) (Some d'))
  else
    let* d := deref (r_data r) in
    let* d' := aset d i v in
    Ok (set_cells r (Some d') (r_data2d r)).

(** data_raster.hpp:2786-2802 *)
Definition SetValue (r : raster T) (row col : Z) (v : T) (lyr : Z) : outcome (raster T) :=
  if negb (ValidateRasterData r) || negb (ValidateRowCol r row col) || negb (ValidateLayer r lyr)
  then Ok r
  else
    let* i := GetPosition r row col in
    if i =? -1 then Ok r else write_cell r i (lyr - 1) v.

(** Row-major list of the cells visited by the double loop 3810-3811.
    In data_raster.hpp:3802-3831. *)
Definition grid_cells (rows cols : Z) : list (Z * Z) :=
  flat_map (fun i => map (fun j => (i, j)) (zseq cols)) (zseq rows).

(** One valid cell collected by 3810-3831: position and values of all layers.
    In data_raster.hpp:3802-3831. *)
Record vcell (A : Type) := mkVcell { vc_row : Z; vc_col : Z; vc_vals : list A }.
Arguments mkVcell {A}. Arguments vc_row {A}. Arguments vc_col {A}. Arguments vc_vals {A}.

(** Layers [from .. n_lyrs-1] of cell [i] (3821-3827). In data_raster.hpp:3802-3831. *)
Definition read_layers (r : raster T) (i : Z) (from : Z) : outcome (list T) :=
  ofold (fun acc k => let* v := read_cell r i (from + k + 1) in Ok (acc ++ [v]))
        (zseq (r_nlyrs r - from)) [].

(** data_raster.hpp:3810-3831. The first layer's value decides; the C++ keeps
    it in [values] and the other layers in [values_2d]. *)
Definition collect_valid (r : raster T) : outcome (list (vcell T)) :=
  ofold (fun acc ij =>
           let i := fst ij in let j := snd ij in
           let idx := i * r_cols r + j in
           let* v := read_cell r idx 1 in
           if feq v (r_nodata r) then Ok acc
           else
             let* rest := (if r_is2d r && (1 <? r_nlyrs r) then read_layers r idx 1 else Ok []) in
             Ok (acc ++ [mkVcell i j (v :: rest)]))
        (grid_cells (r_rows r) (r_cols r)) [].

(** utils_array.h:331-355 Initialize1DArray: nothing happens unless the pointer
    is null; a non-positive length leaves it null. *)
Definition init1d {A} (p : option (list A)) (n : Z) (v : A) : option (list A) :=
  match p with
  | Some _ => p
  | None => if n <=? 0 then None else Some (repeat v (Z.to_nat n))
  end.

(** utils_array.h:381-411 Initialize2DArray, where [v] is one initialised row:
    nothing happens unless the pointer is null; a negative row count leaves it
    null, but zero rows give a non-null array without rows. *)
Definition init2d {A} (p : option (list A)) (n : Z) (v : A) : option (list A) :=
  match p with
  | Some _ => p
  | None => if n <? 0 then None else Some (repeat v (Z.to_nat n))
  end.

(** utils_array.h:467-475 Release2DArray reads [data[0]]: undefined on an array
    without rows. *)
Definition release2d {A} (p : option (list A)) : outcome unit :=
  match p with Some [] => UB | _ => Ok tt end.

(** data_raster.hpp:3852-3867, body of the parallel loop for iteration [i];
    the shared arrays are threaded through. *)
Definition fill_step (r : raster T) (vs : list (vcell T)) (i : nat) : outcome (raster T) :=
  let zi := Z.of_nat i in
  match nth_error vs i with
  | None => Throw                       (* vector::at *)
  | Some c =>
      let* r1 :=
        (if r_is2d r then
           ofold (fun r kv => write_cell r zi (fst kv) (snd kv))
                 (combine (zseq (Z.of_nat (length (vc_vals c)))) (vc_vals c)) r
         else
           match vc_vals c with v :: _ => write_cell r zi 0 v | [] => UB end) in
      let* p := deref (r_pos r1) in
      let* ix := deref (r_posidx r1) in
      let* p' := aset p zi (vc_row c, vc_col c) in
      let* ix' := aset ix zi (vc_row c * r_cols r + vc_col c) in
      Ok (set_pos r1 (Some p') (Some ix') (r_calc r1) (r_store r1))
  end.

(** data_raster.hpp:3802-3869. [ord] is the order in which the iterations of
    the parallel loop happen to run. *)
Definition CalculateValidPositions (ord : list nat) (r : raster T) : outcome (raster T) :=
  let* vs := collect_valid r in
  let n := Z.of_nat (length vs) in
  let r1 := set_ncells r n n in
  let* r2 := (if r_is2d r
              then let* _ := release2d (r_data2d r) in
                   Ok (set_cells r1 (r_data r1)
                         (init2d None n (repeat (r_nodata r) (Z.to_nat (r_nlyrs r)))))
              else Ok (set_cells r1 (init1d None n (r_nodata r)) (r_data2d r1))) in
  let r3 := set_pos r2 (init2d (r_pos r2) n (0, 0)) (init1d (r_posidx r2) n 0) (r_calc r2) true in
  let* r4 := ofold (fun r i => fill_step r vs i) ord r3 in
  Ok (set_pos r4 (r_pos r4) (r_posidx r4) true (r_store r4)).

(** Number of iterations of the parallel loop 3852-3853. In data_raster.hpp:3852-3867. *)
Definition CalcIterations (r : raster T) : outcome Z :=
  let* vs := collect_valid r in Ok (Z.of_nat (length vs)).

(** data_raster.hpp:3872-3886 (no mask): new raster and return code. *)
Definition CalcNoMask (ord : list nat) (r : raster T) : outcome (raster T * Z) :=
  let old_fullsize := r_rows r * r_cols r in
  if r_calc r then
    if isnull (r_pos r) || isnull (r_posidx r) then
      let* r' := CalculateValidPositions ord r in Ok (r', 1)
    else Ok (r, 0)
  else Ok (set_ncells r old_fullsize old_fullsize, 0).

(** data_raster.hpp:2805-2813 for a raster without mask. *)
Definition SetCalcPositions (ord : list nat) (r : raster T) : outcome (raster T * bool) :=
  if negb (ValidateRasterData r) then Ok (r, false)
  else if r_calc r && (negb (isnull (r_pos r)) || negb (isnull (r_posidx r))) then Ok (r, false)
  else
    let* res := CalcNoMask ord (set_pos r (r_pos r) (r_posidx r) true (r_store r)) in
    Ok (fst res, 0 <=? snd res).

(** data_raster.hpp:3722-3734, iteration [i] of the parallel loop. *)
Definition replace_step (nd v : T) (r : raster T) (i : nat) : outcome (raster T) :=
  ofold (fun r lyr =>
           if r_is2d r && negb (isnull (r_data2d r)) then
             let* x := read_cell r (Z.of_nat i) (lyr + 1) in
             if feq x nd then write_cell r (Z.of_nat i) lyr v else Ok r
           else
             let* d := deref (r_data r) in
             let* x := aget d (Z.of_nat i) in
             if feq x nd then
               let* d' := aset d (Z.of_nat i) v in
               Ok (set_cells r (Some d') (r_data2d r))
             else Ok r)
        (zseq (r_nlyrs r)) r.

(** data_raster.hpp:3720-3738. [ord]: order of the parallel iterations. The
    default value becomes the replacement as well. *)
Definition ReplaceNoData (ord : list nat) (r : raster T) (v : T) : outcome (raster T) :=
  let* r' := ofold (replace_step (r_nodata r) v) ord r in
  Ok (set_nodata r' v v v).

(** CVT_INT of a cell value: [None] when it does not fit an int (undefined). basic.h:325. *)
Variable toint : T -> option Z.

(** [find] in a [map<int, T>], data_raster.hpp:3752-3766. *)
Fixpoint massoc (m : list (Z * T)) (k : Z) : option T :=
  match m with
  | [] => None
  | (k', v) :: t => if k =? k' then Some v else massoc t k
  end.

(** data_raster.hpp:3752-3766, one cell and layer. [recls.count(curv) < 0]
    (3755) compares an unsigned count with 0 and is never true, so the table is
    never extended and [recls.at] throws. The detour of the key through [T]
    ([T curv = CVT_INT(...)]) is the identity because the truncated value of a
    [T] is representable in [T]. *)
Definition reclass_step (m : list (Z * T)) (r : raster T) (ik : Z * Z) : outcome (raster T) :=
  let i := fst ik in let lyr := snd ik in
  let* x := (if r_is2d r && negb (isnull (r_data2d r)) then read_cell r i (lyr + 1)
             else let* d := deref (r_data r) in aget d i) in
  match toint x with
  | None => UB
  | Some k =>
      match massoc m k with
      | None => Throw
      | Some v =>
          if r_is2d r && negb (isnull (r_data2d r)) then write_cell r i lyr v
          else let* d := deref (r_data r) in
               let* d' := aset d i v in Ok (set_cells r (Some d') (r_data2d r))
      end
  end.

(** Loop that reports the state reached when the body throws or goes wrong.
    For data_raster.hpp:3741-3769. *)
Fixpoint sfold {A B} (f : A -> B -> outcome A) (l : list B) (a : A) : A * outcome unit :=
  match l with
  | [] => (a, Ok tt)
  | b :: t => match f a b with
              | Ok a' => sfold f t a'
              | UB => (a, UB)
              | Throw => (a, Throw)
              end
  end.

(** data_raster.hpp:3741-3769: final state and how the call ended. *)
Definition Reclassify (r : raster T) (m : list (Z * T)) : raster T * outcome unit :=
  sfold (reclass_step m) (list_prod (zseq (r_ncells r)) (zseq (r_nlyrs r))) r.

(** data_raster.hpp:2615-2638: pointer to the stored values. *)
Definition GetRasterData (r : raster T) : option (Z * list T) :=
  match r_data r with
  | Some d => if negb (r_is2d r) then Some (r_ncells r, d) else None
  | None => None
  end.
(** data_raster.hpp:2626-2638. *)
Definition Get2DRasterData (r : raster T) : option (Z * Z * list (list T)) :=
  match r_data2d r with
  | Some d => if r_is2d r then Some (r_ncells r, r_nlyrs r, d) else None
  | None => None
  end.

(** data_raster.hpp:2641-2674 (pos_data_ variant and pos_idx_ variant). *)
Definition GetRasterPositionData (ord : list nat) (r : raster T) : outcome (raster T * (Z * option (list (Z * Z)))) :=
  if negb (isnull (r_pos r)) then Ok (r, (r_ncells r, r_pos r))
  else if negb (ValidateRasterData r) then Ok (r, (-1, None))
  else let* r' := CalculateValidPositions ord r in Ok (r', (r_ncells r', r_pos r')).
(** data_raster.hpp:2658-2674. *)
Definition GetRasterPositionIndex (ord : list nat) (r : raster T) : outcome (raster T * (Z * option (list Z))) :=
  if negb (isnull (r_posidx r)) then Ok (r, (r_ncells r, r_posidx r))
  else if negb (ValidateRasterData r) then Ok (r, (-1, None))
  else let* r' := CalculateValidPositions ord r in Ok (r', (r_ncells r', r_posidx r')).

(** data_raster.hpp:2816-2837. The second component tells whether the call
    succeeded. The former positions array is released when present. *)
Definition SetPositions2D (r : raster T) (len : Z) (p : option (list (Z * Z))) : outcome (raster T * bool) :=
  if negb (isnull (r_pos r)) && negb (len =? r_ncells r) then Ok (r, false)
  else let* _ := release2d (r_pos r) in Ok (set_pos r p (r_posidx r) true false, true).
(** data_raster.hpp:2828-2837. *)
Definition SetPositions1D (r : raster T) (len : Z) (p : option (list Z)) : outcome (raster T * bool) :=
  if negb (isnull (r_posidx r)) && negb (len =? r_ncells r) then Ok (r, false)
  else Ok (set_pos r (r_pos r) p true false, true).

(** data_raster.hpp:2327-2335, the destructor's releases that can go wrong on a
    single object: [Release2DArray] of positions it owns and of layered data. *)
Definition Destroy (r : raster T) : outcome unit :=
  let* _ := (if r_store r then release2d (r_pos r) else Ok tt) in
  if r_is2d r then release2d (r_data2d r) else Ok tt.

End Raster.
Arguments mkVcell {A}. Arguments vc_row {A}. Arguments vc_col {A}. Arguments vc_vals {A}.
