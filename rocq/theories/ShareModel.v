(** One raster object used by several threads: the functions that read and set values, as
    single accesses to the fields and elements of the object. Proof-free.

    The messages for refused arguments are left out; reading the pointer to an array and
    comparing it with null are one access. *)
From Coq Require Import ZArith List Bool.
From Verif Require Import Base RasterModel ParModel.
Import ListNotations.
Open Scope Z_scope.

(** The fields, data_raster.hpp:1950-2000: is_2draster, raster_, raster_2d_ (null or not), rows and columns of
    headers_, n_lyrs_, n_cells_, calc_pos_, pos_data_, pos_idx_ (null or not),
    no_data_value_, stats_calculated_. *)
Definition F_2d : loc := (A_field, 0, 0).
(** data_raster.hpp:1950-2000, raster_. *)
Definition F_data : loc := (A_field, 1, 0).
(** data_raster.hpp:1950-2000, raster_2d_. *)
Definition F_data2 : loc := (A_field, 2, 0).
(** data_raster.hpp:1629, GetRows. *)
Definition F_rows : loc := (A_field, 3, 0).
(** data_raster.hpp:1628, GetCols. *)
Definition F_cols : loc := (A_field, 4, 0).
(** data_raster.hpp:1950-2000, n_lyrs_. *)
Definition F_lyrs : loc := (A_field, 5, 0).
(** data_raster.hpp:1950-2000, n_cells_. *)
Definition F_cells : loc := (A_field, 6, 0).
(** data_raster.hpp:1950-2000, calc_pos_. *)
Definition F_calc : loc := (A_field, 7, 0).
(** data_raster.hpp:1950-2000, pos_data_. *)
Definition F_pos : loc := (A_field, 8, 0).
(** data_raster.hpp:1950-2000, pos_idx_. *)
Definition F_posidx : loc := (A_field, 9, 0).
(** data_raster.hpp:1950-2000, no_data_value_. *)
Definition F_nodata : loc := (A_field, 10, 0).
(** data_raster.hpp:1950-2000, stats_calculated_. *)
Definition F_stats : loc := (A_field, 11, 0).

Section Share.
Variables T D : Type.
(** What a call gives back (data_raster.hpp:2542-2802). *)
Inductive answer := AVal (x : T) | APos (z : Z) | AStat (d : D) | ADone.
Notation prog := (prog T D answer).

(** A flag or a null test (data_raster.hpp:1766). *)
Definition isP (l : loc) (k : bool -> prog) : prog := rdI l (fun z => k (negb (z =? 0))).
(** && (data_raster.hpp:1766). *)
Definition andP (a b : (bool -> prog) -> prog) (k : bool -> prog) : prog := a (fun x => if x then b k else k false).
(** || (data_raster.hpp:1766). *)
Definition orP (a b : (bool -> prog) -> prog) (k : bool -> prog) : prog := a (fun x => if x then k true else b k).
(** ! (data_raster.hpp:1766). *)
Definition notP (a : (bool -> prog) -> prog) (k : bool -> prog) : prog := a (fun x => k (negb x)).

(** data_raster.hpp:1765-1771 ValidateRasterData *)
Definition ValidateP : (bool -> prog) -> prog := orP (andP (notP (isP F_2d)) (isP F_data)) (andP (isP F_2d) (isP F_data2)).
(** data_raster.hpp:1776-1783 ValidateRowCol *)
Definition RowColP (row col : Z) : (bool -> prog) -> prog :=
  notP (orP (orP (fun k => k (row <? 0)) (fun k => rdI F_rows (fun n => k (n <=? row))))
            (orP (fun k => k (col <? 0)) (fun k => rdI F_cols (fun n => k (n <=? col))))).
(** data_raster.hpp:1788-1796 ValidateLayer *)
Definition LayerP (lyr : Z) : (bool -> prog) -> prog := notP (orP (fun k => k (lyr <=? 0)) (fun k => rdI F_lyrs (fun n => k (n <? lyr)))).
(** data_raster.hpp:1801-1807 ValidateIndex *)
Definition IndexP (i : Z) : (bool -> prog) -> prog := notP (orP (fun k => k (i <? 0)) (fun k => rdI F_cells (fun n => k (n <=? i)))).

(** data_raster.hpp:2560-2570, the search; [fuel] as in RasterModel.v. *)
Fixpoint searchP (fuel : nat) (target left right : Z) (k : Z -> prog) : prog :=
  match fuel with
  | O => Bad
  | S fuel' =>
      if left <=? right then
        let middle := left + Z.quot (right - left) 2 in
        rdI (A_posidx, middle, 0) (fun v => if target <? v then searchP fuel' target left (middle - 1) k else
        rdI (A_posidx, middle, 0) (fun v => if v <? target then searchP fuel' target (middle + 1) right k else k middle))
      else k (-1)
  end.
(** data_raster.hpp:2542-2571 GetPosition *)
Definition GetPositionP (row col : Z) (k : Z -> prog) : prog :=
  orP (notP ValidateP) (notP (RowColP row col)) (fun bad => if bad then k (-2) else
  rdI F_cols (fun cols => let pos_idx := cols * row + col in
  orP (orP (notP (isP F_calc)) (notP (isP F_pos))) (notP (isP F_posidx)) (fun plain => if plain then k pos_idx else
  rdI F_cells (fun n => searchP (S (Z.to_nat n)) pos_idx 0 (n - 1) k)))).
(** The element of a cell, data_raster.hpp:2700-2703, 2737-2738, 2796-2800. *)
Definition cell (two : bool) (i lyr : Z) : loc := if two then (A_raster2, i, lyr - 1) else (A_raster, i, 0).
(** data_raster.hpp:2696-2704 GetValueByIndex *)
Definition GetValueByIndexP (i lyr : Z) (k : T -> prog) : prog :=
  orP (orP (notP ValidateP) (notP (IndexP i))) (notP (LayerP lyr)) (fun bad => if bad then rdT F_nodata k else
  isP F_2d (fun two => rdT (cell two i lyr) k)).
(** data_raster.hpp:2726-2739 GetValue *)
Definition GetValueP (row col lyr : Z) (k : T -> prog) : prog :=
  orP (orP (notP ValidateP) (notP (RowColP row col))) (notP (LayerP lyr)) (fun bad => if bad then rdT F_nodata k else
  andP (isP F_calc) (orP (isP F_pos) (isP F_posidx)) (fun pos => if pos
    then GetPositionP row col (fun i => if i <? 0 then rdT F_nodata k else GetValueByIndexP i lyr k)
    else isP F_2d (fun two => rdI F_cols (fun cols => rdT (cell two (row * cols + col) lyr) k)))).
(** data_raster.hpp:2786-2802 SetValue *)
Definition SetValueP (row col : Z) (v : T) (lyr : Z) (k : prog) : prog :=
  orP (orP (notP ValidateP) (notP (RowColP row col))) (notP (LayerP lyr)) (fun bad => if bad then k else
  GetPositionP row col (fun i => if i =? -1 then k else isP F_2d (fun two => Wr (cell two i lyr) (WT v) k))).

(** Calls, and programs that make them one after the other, going on as the answers say
    (data_raster.hpp:2542-2802). *)
Inductive call := CValue (row col lyr : Z) | CIndex (i lyr : Z) | CPos (row col : Z) | CSet (row col : Z) (v : T) (lyr : Z).
(** data_raster.hpp:2542-2802 *)
Inductive client := CEnd | CCall (c : call) (k : answer -> client).
(** A call (data_raster.hpp:2542-2802). *)
Definition callP (c : call) (k : answer -> prog) : prog :=
  match c with
  | CValue row col lyr => GetValueP row col lyr (fun x => k (AVal x))
  | CIndex i lyr => GetValueByIndexP i lyr (fun x => k (AVal x))
  | CPos row col => GetPositionP row col (fun i => k (APos i))
  | CSet row col v lyr => SetValueP row col v lyr (k ADone)
  end.
(** The program of a client, which keeps the answers (data_raster.hpp:2542-2802). *)
Fixpoint clientP (c : client) : prog := match c with CEnd => Done | CCall c k => callP c (fun a => Add a (clientP (k a))) end.

(** *** Statistics of a raster of one layer *)
(** FloatEqual with NODATA_VALUE (data_raster.hpp:2506); the six statistics of the cells
    (C16, utils_math.h:383-414). *)
Variable is_none : D -> bool.
Variable six : list T -> Z -> D.
(** Reading the cells (utils_math.h:383-414; once instead of four times). *)
Fixpoint all_cells (ix : list Z) (seen : list T) (k : list T -> prog) : prog :=
  match ix with [] => k seen | i :: ix => rdT (A_raster, i, 0) (fun x => all_cells ix (seen ++ [x]) k) end.
(** data_raster.hpp:2439-2468 CalculateStatistics *)
Definition CalculateP : prog :=
  isP F_stats (fun c => if c then Done else
  rdI F_cells (fun n => all_cells (zseq n) [] (fun xs =>
  seqp (forl (zseq 6) (fun j => Wr (A_stats, j, 0) (WD (six xs j)) Done)) (Wr F_stats (WI 1) Done)))).
(** data_raster.hpp:2502-2509 GetStatistics of statistic number [s] *)
Definition GetStatisticsP (s : Z) (k : D -> prog) : prog :=
  rdD (A_stats, s, 0) (fun x =>
  orP (fun k => k (is_none x)) (notP (isP F_stats)) (fun need =>
  seqp (if need then CalculateP else Done) (rdD (A_stats, s, 0) k))).
End Share.
Arguments AVal {T D}. Arguments APos {T D}. Arguments AStat {T D}. Arguments ADone {T D}.
Arguments isP {T D}. Arguments andP {T D}. Arguments orP {T D}. Arguments notP {T D}.
Arguments ValidateP {T D}. Arguments RowColP {T D}. Arguments LayerP {T D}. Arguments IndexP {T D}.
Arguments searchP {T D}. Arguments GetPositionP {T D}. Arguments GetValueByIndexP {T D}. Arguments GetValueP {T D}. Arguments SetValueP {T D}.
Arguments CValue {T}. Arguments CIndex {T}. Arguments CPos {T}. Arguments CSet {T}. Arguments CEnd {T D}. Arguments CCall {T D}.
Arguments callP {T D}. Arguments clientP {T D}. Arguments all_cells {T D}. Arguments CalculateP {T D}. Arguments GetStatisticsP {T D}.
