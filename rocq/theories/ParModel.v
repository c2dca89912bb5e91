(** The parallel loops of the library ([#pragma omp parallel for]) as single accesses to the
    elements of arrays, and what a team of threads can make of them. Proof-free.

    The arrays are different blocks (C08, C09, C55), so that elements with different names
    are different objects. What the threads only read and what is no array element (sizes,
    flags, NoData value, headers) is a constant. Loop variables and variables declared in
    the loops are private. *)
From Coq Require Import ZArith List Bool.
From Verif Require Import Base RasterModel.
Import ListNotations.
Open Scope Z_scope.

(** The arrays: data, init_data (utils_array.h:335-425); idx, tmpstats (utils_math.h:360-461);
    new_values (data_raster.hpp:597-776); raster_, raster_2d_, pos_data_, pos_idx_, dbdata,
    tmplyrdata (data_raster.hpp:3445-3620); values, values_2d, pos_rows, pos_cols
    (data_raster.hpp:3825-3870); the fields of a raster object (data_raster.hpp:1950-2000). *)
Inductive arr := A_data | A_init | A_idx | A_stats | A_new | A_raster | A_raster2 | A_pos | A_posidx | A_db | A_layer | A_vals | A_vals2 | A_prow | A_pcol | A_field.
(** An element: array, index, second index (0 for arrays of one dimension)
    (data_raster.hpp:3852-3868). *)
Definition loc := (arr * Z * Z)%type.
(** Equality of elements (data_raster.hpp:3852-3868). *)
Definition loc_dec (a b : loc) : {a = b} + {a <> b}.
Proof. repeat decide equality. Defined.

Section Loops.
(** Cells, elements of the other arrays, operands of reductions (utils_math.h:363;
    data_raster.hpp:614). *)
Variables T D R : Type.

(** Contents of an element: an int, a cell, an element of another type
    (data_raster.hpp:3852-3868). *)
Inductive word := WI (z : Z) | WT (x : T) | WD (d : D).

(** What a thread still has to do: read, write, or add to its copy of the reduction variable
    (utils_math.h:363); [Bad] is undefined behaviour. *)
Inductive prog := Done | Bad | Rd (l : loc) (k : word -> prog) | Wr (l : loc) (w : word) (p : prog) | Add (r : R) (p : prog).

(** Statements in order (data_raster.hpp:3852-3868). *)
Fixpoint seqp (p q : prog) : prog :=
  match p with
  | Done => q
  | Bad => Bad
  | Rd l k => Rd l (fun w => seqp (k w) q)
  | Wr l w p => Wr l w (seqp p q)
  | Add r p => Add r (seqp p q)
  end.
(** A loop in one thread over these values of its variable (data_raster.hpp:3723). *)
Fixpoint forl (c : list Z) (f : Z -> prog) : prog := match c with [] => Done | i :: c => seqp (f i) (forl c f) end.

(** Reading an int (data_raster.hpp:3590). *)
Definition rdI (l : loc) (k : Z -> prog) : prog := Rd l (fun w => match w with WI z => k z | _ => Bad end).
(** Reading a cell (data_raster.hpp:3458). *)
Definition rdT (l : loc) (k : T -> prog) : prog := Rd l (fun w => match w with WT x => k x | _ => Bad end).
(** Reading an element of another type (utils_array.h:375). *)
Definition rdD (l : loc) (k : D -> prog) : prog := Rd l (fun w => match w with WD x => k x | _ => Bad end).

(** *** A team (OpenMP, "parallel for" with any schedule; 25 loops, e.g. data_raster.hpp:3852) *)

(** The contents of the elements there are (data_raster.hpp:3852). *)
Definition mem := loc -> option word.
(** A write (data_raster.hpp:3862). *)
Definition set (m : mem) (l : loc) (w : word) : mem := fun x => if loc_dec l x then Some w else m x.
(** A thread with the operands it has added (utils_math.h:363). *)
Definition thread := (prog * list R)%type.
(** An access: thread, whether it writes, element (data_raster.hpp:3852). *)
Definition event := (nat * bool * loc)%type.

(** One access of one thread (data_raster.hpp:3852). *)
Inductive step (m : mem) (ps : list thread) : list event -> mem -> list thread -> Prop :=
| step_rd t l k r w : nth_error ps t = Some (Rd l k, r) -> m l = Some w -> step m ps [(t, false, l)] m (upd ps t (k w, r))
| step_wr t l w p r w0 : nth_error ps t = Some (Wr l w p, r) -> m l = Some w0 -> step m ps [(t, true, l)] (set m l w) (upd ps t (p, r))
| step_add t d p r : nth_error ps t = Some (Add d p, r) -> step m ps [] m (upd ps t (p, r ++ [d])).
(** Any number of them (data_raster.hpp:3852). *)
Inductive exec (m : mem) (ps : list thread) : list event -> mem -> list thread -> Prop :=
| exec_start : exec m ps [] m ps
| exec_next tr m1 ps1 e m2 ps2 : exec m ps tr m1 ps1 -> step m1 ps1 e m2 ps2 -> exec m ps (tr ++ e) m2 ps2.
(** The team at the start, with the iterations each thread gets (data_raster.hpp:3852). *)
Definition start (body : Z -> prog) (chunks : list (list Z)) : list thread := map (fun c => (forl c body, [])) chunks.

(** *** The bodies of the loops *)

(** utils_array.h:350-353 Initialize1DArray; 402-405 Initialize2DArray, the pool. *)
Definition init1 (init : T) (i : Z) : prog := Wr (A_data, i, 0) (WT init) Done.
(** utils_array.h:373-376 Initialize1DArray from an array; data_raster.hpp:767-768, 773-774. *)
Definition copy1 (cast : D -> T) (i : Z) : prog := rdD (A_init, i, 0) (fun x => Wr (A_data, i, 0) (WT (cast x)) Done).
(** utils_array.h:418-423 Initialize2DArray from an array. *)
Definition copy2 (cast : D -> T) (cols i : Z) : prog :=
  forl (zseq cols) (fun j => rdD (A_init, i, j) (fun x => Wr (A_data, i, j) (WT (cast x)) Done)).
(** utils_math.h:363-366 Sum. *)
Definition sum1 (num : T -> R) (i : Z) : prog := rdT (A_data, i, 0) (fun x => Add (num x) Done).
(** utils_math.h:373-377 Sum of selected elements. *)
Definition sum_idx (num : T -> R) (i : Z) : prog := rdI (A_idx, i, 0) (fun j => rdT (A_data, j, 0) (fun x => Add (num x) Done)).
(** utils_math.h:399-404 BasicStatistics; [dev x y]: the product of the deviations from the
    mean. *)
Definition std1 (is_exclude : T -> bool) (dev : T -> T -> R) (i : Z) : prog :=
  rdT (A_data, i, 0) (fun v => if is_exclude v then Done else
    rdT (A_data, i, 0) (fun x => rdT (A_data, i, 0) (fun y => Add (dev x y) Done))).
(** utils_math.h:447-452 BasicStatistics of layer [j]; [dev x a y b]: the product of [x - a]
    and [y - b]. *)
Definition std2 (is_exclude : T -> bool) (dev : T -> D -> T -> D -> R) (j i : Z) : prog :=
  rdT (A_data, i, j) (fun v => if is_exclude v then Done else
    rdT (A_data, i, j) (fun x => rdD (A_stats, 1, j) (fun a => rdT (A_data, i, j) (fun y => rdD (A_stats, 1, j) (fun b => Add (dev x a y b) Done))))).
(** data_raster.hpp:614-622, 637-645, 656-664, 675-683, 694-702, 713-721, 733-741, 752-760
    WriteSingleGeotiff: conversion to the output type. [is_old]: old NoData value,
    [illegal]: out of the range of the type, [cast]: static_cast, not defined for all
    values; [one]: 1. *)
Definition convert (is_old : T -> bool) (change : bool) (illegal : T -> bool) (cast : T -> option D) (code : D) (one : R) (i : Z) : prog :=
  rdT (A_data, i, 0) (fun v => if is_old v && change then Wr (A_new, i, 0) (WD code) Done else
    rdT (A_data, i, 0) (fun x => seqp (if illegal x then Add one Done else Done)
      (rdT (A_data, i, 0) (fun y => match cast y with Some d => Wr (A_new, i, 0) (WD d) Done | None => Bad end)))).
(** data_raster.hpp:3456-3459 ReadFromFiles: the first layer. *)
Definition first_layer (i : Z) : prog := rdT (A_raster, i, 0) (fun x => Wr (A_raster2, i, 0) (WT x) Done).
(** data_raster.hpp:3624-3638 AddOtherLayerRasterData; [place row col]: the index in the
    layer of the cell below (C93), if any; [is_lnd]: NoData of the layer. *)
Definition other_layer (place : Z -> Z -> option Z) (is_lnd : T -> bool) (nd : T) (row col cell lyr : Z) : prog :=
  match place row col with
  | None => Wr (A_raster2, cell, lyr) (WT nd) Done
  | Some j => rdT (A_layer, j, 0) (fun v => Wr (A_raster2, cell, lyr) (WT (if is_lnd v then nd else v)) Done)
  end.
(** data_raster.hpp:3482-3489 ReadFromFiles: another layer, by positions. *)
Definition layer_pos (place : Z -> Z -> option Z) (is_lnd : T -> bool) (nd : T) (cols lyr i : Z) : prog :=
  rdI (A_posidx, i, 0) (fun k => rdI (A_posidx, i, 0) (fun k' => other_layer place is_lnd nd (Z.quot k cols) (Z.rem k' cols) i lyr)).
(** data_raster.hpp:3492-3502 ReadFromFiles: another layer, by rows. *)
Definition layer_row (place : Z -> Z -> option Z) (is_lnd is_nd : T -> bool) (nd : T) (cols lyr i : Z) : prog :=
  forl (zseq cols) (fun j => rdT (A_raster2, i * cols + j, 0) (fun v =>
    if is_nd v then Wr (A_raster2, i * cols + j, lyr) (WT nd) Done else other_layer place is_lnd nd i j (i * cols + j) lyr)).
(** data_raster.hpp:3587-3592 ReadFromMongoDB, one layer by positions. *)
Definition from_db1 (cast : T -> T) (i : Z) : prog :=
  rdI (A_posidx, i, 0) (fun k => rdT (A_db, k, 0) (fun x => Wr (A_raster, i, 0) (WT (cast x)) Done)).
(** data_raster.hpp:3599-3610 ReadFromMongoDB, several layers. *)
Definition from_db2 (by_pos : bool) (lyrs i : Z) : prog :=
  let row k := forl (zseq lyrs) (fun j => rdT (A_db, k * lyrs + j, 0) (fun x => Wr (A_raster2, i, j) (WT x) Done)) in
  if by_pos then rdI (A_posidx, i, 0) row else row i.
(** data_raster.hpp:3721-3734 ReplaceNoData. *)
Definition replace (two : bool) (is_nd : T -> bool) (v : T) (lyrs i : Z) : prog :=
  forl (zseq lyrs) (fun lyr => let l := if two then (A_raster2, i, lyr) else (A_raster, i, 0) in
    rdT l (fun x => if is_nd x then Wr l (WT v) Done else Done)).
(** data_raster.hpp:3852-3867 CalculateValidPositionsFromGridData: values and
    positions of the valid cells. *)
Definition compact (two : bool) (lyrs cols i : Z) : prog :=
  seqp (if two
        then rdT (A_vals, i, 0) (fun x => Wr (A_raster2, i, 0) (WT x)
               (forl (map (fun j => j + 1) (zseq (lyrs - 1))) (fun lyr => rdT (A_vals2, i, lyr - 1) (fun y => Wr (A_raster2, i, lyr) (WT y) Done))))
        else rdT (A_vals, i, 0) (fun x => Wr (A_raster, i, 0) (WT x) Done))
  (rdI (A_prow, i, 0) (fun r => Wr (A_pos, i, 0) (WI r) (rdI (A_pcol, i, 0) (fun c => Wr (A_pos, i, 1) (WI c)
     (rdI (A_prow, i, 0) (fun r' => rdI (A_pcol, i, 0) (fun c' => Wr (A_posidx, i, 0) (WI (r' * cols + c')) Done))))))).
End Loops.
Arguments WI {T D}. Arguments WT {T D}. Arguments WD {T D}.
Arguments Done {T D R}. Arguments Bad {T D R}. Arguments Rd {T D R}. Arguments Wr {T D R}. Arguments Add {T D R}.
Arguments seqp {T D R}. Arguments forl {T D R}. Arguments rdI {T D R}. Arguments rdT {T D R}. Arguments rdD {T D R}.
Arguments set {T D}. Arguments step {T D R}. Arguments exec {T D R}. Arguments start {T D R}.
Arguments init1 {T D R}. Arguments copy1 {T D R}. Arguments copy2 {T D R}. Arguments sum1 {T D R}. Arguments sum_idx {T D R}. Arguments std1 {T D R}. Arguments std2 {T D R}.
Arguments convert {T D R}. Arguments first_layer {T D R}. Arguments other_layer {T D R}. Arguments layer_pos {T D R}. Arguments layer_row {T D R}.
Arguments from_db1 {T D R}. Arguments from_db2 {T D R}. Arguments replace {T D R}. Arguments compact {T D R}.
