(** Vocabulary for parallel loops. *)
From Coq Require Import ZArith List Bool Permutation.
From Flocq Require Import BinarySingleNaN.
From Verif Require Import Base RasterModel MathModel StrModel MapModel BasicModel FloatModel TypeModel CoordFloatModel CopyModel NumModel AscModel CellModel LayersModel ParModel.
Import ListNotations.
Open Scope Z_scope.

(** Two threads access an element, at least one writing. Nothing orders the accesses of the
    threads within a loop. *)
Definition race (tr : list event) : Prop :=
  exists t u a b l, In (t, a, l) tr /\ In (u, b, l) tr /\ t <> u /\ (a = true \/ b = true).

(** A thread that is about to do something undefined: an access outside of the arrays or an
    undefined conversion. *)
Definition stuck {T D R} (m : mem T D) (th : thread T D R) : Prop :=
  match fst th with Bad => True | Rd l _ => m l = None | Wr l _ _ => m l = None | _ => False end.
Definition finished {T D R} (ps : list (thread T D R)) : Prop := forall th, In th ps -> fst th = Done.

(** A parallel loop over 0 .. n-1 from the memory [m0], however its iterations are given to
    threads and their accesses follow each other: no race, nothing undefined, an end; and at
    the end the memory is [m1] and each thread has added [added i] for its iterations [i],
    in order. *)
Definition parallel_for {T D R} (n : Z) (body : Z -> prog T D R) (m0 m1 : mem T D) (added : Z -> list R) : Prop :=
  forall chunks tr m ps, Permutation (concat chunks) (zseq n) -> exec m0 (start body chunks) tr m ps ->
    ~ race tr /\ (forall th, In th ps -> ~ stuck m th) /\
    (finished ps -> (forall l, m l = m1 l) /\ map snd ps = map (fun c => concat (map added c)) chunks) /\
    (exists tr' m' ps', exec m ps tr' m' ps' /\ finished ps').

(** [m0] with these elements changed. *)
Definition updated {T D} (m0 : mem T D) (f : loc -> option (word T D)) : mem T D := fun l => match f l with Some w => Some w | None => m0 l end.
Definition within (i n : Z) : bool := (0 <=? i) && (i <? n).
(** The [n] elements of an array, of column [c] of an array, or its [n] rows of [k] elements,
    as given by a function. *)
Definition newc {T D} (a : arr) (n c : Z) (f : Z -> word T D) (l : loc) : option (word T D) :=
  let '(b, i, j) := l in if (if loc_dec (a, 0, c) (b, 0, j) then within i n else false) then Some (f i) else None.
Definition new1 {T D} (a : arr) (n : Z) (f : Z -> word T D) (l : loc) : option (word T D) := newc a n 0 f l.
Definition new2 {T D} (a : arr) (n k : Z) (f : Z -> Z -> word T D) (l : loc) : option (word T D) :=
  let '(b, i, j) := l in if (if loc_dec (a, 0, 0) (b, 0, 0) then within i n && within j k else false) then Some (f i j) else None.
Definition or_else {A B} (f g : A -> option B) (a : A) : option B := match f a with Some b => Some b | None => g a end.
(** What is in an array. *)
Definition holds1 {T D} (m : mem T D) (a : arr) (n : Z) (f : Z -> word T D) : Prop := forall i, 0 <= i < n -> m (a, i, 0) = Some (f i).
Definition holds2 {T D} (m : mem T D) (a : arr) (n k : Z) (f : Z -> Z -> word T D) : Prop := forall i j, 0 <= i < n -> 0 <= j < k -> m (a, i, j) = Some (f i j).
(** It exists. *)
Definition there1 {T D} (m : mem T D) (a : arr) (n : Z) : Prop := forall i, 0 <= i < n -> m (a, i, 0) <> None.
Definition there2 {T D} (m : mem T D) (a : arr) (n k : Z) : Prop := forall i j, 0 <= i < n -> 0 <= j < k -> m (a, i, j) <> None.
(** The memory holds the cells of a raster object (RasterModel.v). *)
Definition shows {T D} (m : mem T D) (r : raster T) : Prop :=
  if r_is2d r then forall d i row lyr x, r_data2d r = Some d -> aget d i = Ok row -> aget row lyr = Ok x -> m (A_raster2, i, lyr) = Some (WT x)
  else forall d i x, r_data r = Some d -> aget d i = Ok x -> m (A_raster, i, 0) = Some (WT x).
(** The memory holds the values and positions collected from valid cells. *)
Definition collected {T D} (m : mem T D) (vs : list (vcell T)) : Prop :=
  forall i c, aget vs i = Ok c ->
    m (A_prow, i, 0) = Some (WI (vc_row c)) /\ m (A_pcol, i, 0) = Some (WI (vc_col c)) /\
    forall j x, aget (vc_vals c) j = Ok x -> m (if j =? 0 then (A_vals, i, 0) else (A_vals2, i, j - 1)) = Some (WT x).
(** The memory holds the positions of the cells of a raster object. *)
Definition shows_pos {T D} (m : mem T D) (r : raster T) : Prop :=
  (forall p i a b, r_pos r = Some p -> aget p i = Ok (a, b) -> m (A_pos, i, 0) = Some (WI a) /\ m (A_pos, i, 1) = Some (WI b)) /\
  (forall ix i z, r_posidx r = Some ix -> aget ix i = Ok z -> m (A_posidx, i, 0) = Some (WI z)).

(** Combining the copies of a reduction variable: which threads, in which order. *)
Inductive tree := Leaf (t : nat) | Node (a b : tree).
Fixpoint leaves (s : tree) : list nat := match s with Leaf t => [t] | Node a b => leaves a ++ leaves b end.
(** The copies of the threads start at zero and get the operands the threads have added. *)
Fixpoint combined {T D R} (add : R -> R -> outcome R) (zero : R) (s : tree) (ps : list (thread T D R)) : outcome R :=
  match s with
  | Leaf t => match nth_error ps t with Some th => fold_left (fun acc x => obind acc (fun s => add s x)) (snd th) (Ok zero) | None => UB end
  | Node a b => obind (combined add zero a ps) (fun x => obind (combined add zero b ps) (fun y => add x y))
  end.

(** The memory holds a table of cells and layers. *)
Definition shows_table {T D} (m : mem T D) (d : list (list T)) : Prop :=
  forall i row lyr x, aget d i = Ok row -> aget row lyr = Ok x -> m (A_raster2, i, lyr) = Some (WT x).
(** Where the layer with header [h] has the cell of the object with header [own], if anywhere;
    whether a value is NoData there. As in AddOtherLayerRasterData (LayersModel.v), whenever
    that gives a result. *)
Definition layer_place (own h : smap f64) (row col : Z) : option Z :=
  match own_geo own, layer_geo h, obind (at_get h K_NCOLS) f_int with
  | Ok g, Ok lg, Ok cols =>
      match fPositionByCoordinate lg (fst (fCoordinate g row col)) (snd (fCoordinate g row col)) with
      | Ok p => if (fst p =? -1) || (snd p =? -1) then None else Some (fst p * cols + snd p)
      | _ => None
      end
  | _, _, _ => None
  end.
Definition layer_nodata (h : smap f64) (v : num) : bool := match at_get h K_NODATA with Ok x => FloatEqual (as_double v) x | _ => false end.

(** The memory holds what was read from GridFS, and positions. *)
Definition from_store {T D} (m : mem T D) (data : list T) (idx : option (list Z)) : Prop :=
  (forall k x, aget data k = Ok x -> m (A_db, k, 0) = Some (WT x)) /\ (forall ix i z, idx = Some ix -> aget ix i = Ok z -> m (A_posidx, i, 0) = Some (WI z)).
