(** Which arrays rasters and subsets allocate, share and release
    (src/data_raster.hpp, src/data_raster.cpp, src/utils_array.h). Proof-free.

    Memory is a set of live arrays, each with its number of rows; contents are
    not represented. A two-dimensional array counts as one array. Touching an array
    that is not live, releasing one that is not live, and releasing a
    two-dimensional array without rows (its first row pointer is read) and going
    beyond the rows of a live array are undefined behaviour; columns (layers) are
    not looked at. Where the code goes through the cells of a raster, all of them
    are taken to be touched. Allocation succeeds. What depends on cell
    values (numbers of valid cells, how a raster lies to its mask) is an argument
    of the functions. *)
From Coq Require Import List Bool Arith.
From Verif Require Import Base.
Import ListNotations.
Open Scope outcome_scope.

(** Memory behind the pointers of data_raster.hpp:1952-1999. *)
Record heap := mkHeap { h_next : nat; h_live : list (nat * nat) }.

(** Memory behind the pointers of data_raster.hpp:1952-1999. *)
Fixpoint rows_of (l : list (nat * nat)) (b : nat) : option nat :=
  match l with [] => None | (c, n) :: t => if Nat.eqb b c then Some n else rows_of t b end.
(** Memory behind the pointers of data_raster.hpp:1952-1999. *)
Fixpoint drop (l : list (nat * nat)) (b : nat) : list (nat * nat) :=
  match l with [] => [] | (c, n) :: t => if Nat.eqb b c then t else (c, n) :: drop t b end.

(** Computations that work on memory. No counterpart in data_raster.hpp:1952-1999. *)
Definition M (A : Type) := heap -> outcome (A * heap).
(** No counterpart in data_raster.hpp:1952-1999. *)
Definition ret {A} (a : A) : M A := fun h => Ok (a, h).
(** No counterpart in data_raster.hpp:1952-1999. *)
Definition bind {A B} (m : M A) (k : A -> M B) : M B := fun h => let* x := m h in k (fst x) (snd x).
Declare Scope own_scope.
Notation "'let!' x ':=' m 'in' k" := (bind m (fun x => k))
  (at level 200, x pattern, m at level 100, k at level 200, right associativity) : own_scope.
Open Scope own_scope.

(** [new T[n]]. E.g. utils_array.h:342. *)
Definition new (n : nat) : M nat := fun h => Ok (h_next h, mkHeap (S (h_next h)) ((h_next h, n) :: h_live h)).
(** [delete[] p]. E.g. utils_array.h:462. *)
Definition free (b : nat) : M unit := fun h =>
  match rows_of (h_live h) b with Some _ => Ok (tt, mkHeap (h_next h) (drop (h_live h) b)) | None => UB end.
(** Reading or writing the first [n] elements or rows. E.g. utils_array.h:352. *)
Definition touch (p : option nat) (n : nat) : M unit := fun h =>
  match p with
  | Some b => match rows_of (h_live h) b with Some r => if (n <=? r)%nat then Ok (tt, h) else UB | None => UB end
  | None => match n with O => Ok (tt, h) | _ => UB end
  end.

(** utils_array.h:458-464 Release1DArray. *)
Definition release1 (p : option nat) : M unit := match p with None => ret tt | Some b => free b end.
(** utils_array.h:466-474 Release2DArray. *)
Definition release2 (p : option nat) : M unit :=
  match p with None => ret tt | Some b => let! _ := touch p 1 in free b end.
(** utils_array.h:330-355 Initialize1DArray with a value. *)
Definition init1 (n : nat) (p : option nat) : M (option nat) :=
  match p with
  | Some _ => ret p
  | None => match n with O => ret None | _ => let! b := new n in ret (Some b) end
  end.
(** utils_array.h:357-378 Initialize1DArray with an array. *)
Definition init1_from (n : nat) (p src : option nat) : M (option nat) :=
  match p with
  | Some _ => ret p
  | None =>
      let! b := new n in
      let! _ := (match src with None => ret tt | _ => touch src n end) in
      ret (Some b)
  end.
(** utils_array.h:380-411 Initialize2DArray with a value. *)
Definition init2 (n : nat) (p : option nat) : M (option nat) :=
  match p with Some _ => ret p | None => let! b := new n in ret (Some b) end.
(** utils_array.h:413-425 Initialize2DArray with an array: its first element is
    read in any case. *)
Definition init2_from (n : nat) (p src : option nat) : M (option nat) :=
  let! _ := touch src 1 in
  match p with Some _ => ret p | None => let! b := init2 n p in let! _ := touch src n in ret b end.

(** data_raster.hpp:1157-1170 SubsetPositions: members that matter here. *)
Record sub := mkU { u_n : nat; u_alloc : bool; u_lpos : option nat; u_lidx : option nat; u_global : option nat; u_data : option nat; u_data2 : option nat }.

(** data_raster.hpp:1952-1999 clsRasterData: members that matter here. [stats]:
    the arrays in [stats_2d_], no list if the map is empty. [omask]: the raster
    [mask_] points to. [grid]: rows times columns of the header. *)
Record obj := mkObj {
  d1 : option nat; d2 : option nat; pos : option nat; idx : option nat;
  calc : bool; store : bool; is2d : bool; scalc : bool;
  ncells : nat; nlyrs : nat; grid : nat;
  stats : option (list (option nat));
  subs : list sub;
  omask : option nat; ext : bool
}.

(** Assignments to groups of members (no /repo counterpart).
    The members of data_raster.hpp:1952-1999. *)
Definition set_data (o : obj) (a b : option nat) (n : nat) : obj :=
  mkObj a b (pos o) (idx o) (calc o) (store o) (is2d o) (scalc o) n (nlyrs o) (grid o) (stats o) (subs o) (omask o) (ext o).
(** The members of data_raster.hpp:1952-1999. *)
Definition set_places (o : obj) (p i : option nat) (c s : bool) (n : nat) : obj :=
  mkObj (d1 o) (d2 o) p i c s (is2d o) (scalc o) n (nlyrs o) (grid o) (stats o) (subs o) (omask o) (ext o).
(** The members of data_raster.hpp:1952-1999. *)
Definition set_statistics (o : obj) (st : option (list (option nat))) (c : bool) : obj :=
  mkObj (d1 o) (d2 o) (pos o) (idx o) (calc o) (store o) (is2d o) c (ncells o) (nlyrs o) (grid o) st (subs o) (omask o) (ext o).
(** The members of data_raster.hpp:1952-1999. *)
Definition set_subs (o : obj) (u : list sub) : obj :=
  mkObj (d1 o) (d2 o) (pos o) (idx o) (calc o) (store o) (is2d o) (scalc o) (ncells o) (nlyrs o) (grid o) (stats o) u (omask o) (ext o).
(** The members of data_raster.hpp:1952-1999. *)
Definition set_mask (o : obj) (m : option nat) : obj :=
  mkObj (d1 o) (d2 o) (pos o) (idx o) (calc o) (store o) (is2d o) (scalc o) (ncells o) (nlyrs o) (grid o) (stats o) (subs o) m (ext o).

(** The members of data_raster.hpp:1952-1999. *)
Definition set_ext (o : obj) (e : bool) : obj :=
  mkObj (d1 o) (d2 o) (pos o) (idx o) (calc o) (store o) (is2d o) (scalc o) (ncells o) (nlyrs o) (grid o) (stats o) (subs o) (omask o) e.
(** The members of data_raster.hpp:1952-1999. *)
Definition set_grid (o : obj) (g : nat) : obj :=
  mkObj (d1 o) (d2 o) (pos o) (idx o) (calc o) (store o) (is2d o) (scalc o) (ncells o) (nlyrs o) g (stats o) (subs o) (omask o) (ext o).
(** [nullptr ==], e.g. utils_array.h:469. *)
Definition null {A} (p : option A) : bool := match p with None => true | Some _ => false end.

(** data_raster.hpp:2026-2053 InitializeRasterClass; data_raster.cpp:173-187: six
    statistics without arrays. *)
Definition blank (two : bool) : obj :=
  mkObj None None None None false false two false 0 0 0 (Some (repeat None 6)) [] None false.

(** data_raster.hpp:2079-2104 and 2115-2137: constructors from an array, which the
    object takes over. *)
Definition FromArray (n : nat) : M obj := let! b := new n in ret (mkObj (Some b) None None None false false false false n 1 n (Some (repeat None 6)) [] None false).
(** data_raster.hpp:2115-2137. *)
Definition FromArray2D (n lyrs : nat) : M obj := let! b := new n in ret (mkObj None (Some b) None None false false true false n lyrs n (Some (repeat None 6)) [] None false).

(** data_raster.hpp:1765-1771 ValidateRasterData. *)
Definition valid (o : obj) : bool := (negb (is2d o) && negb (null (d1 o))) || (is2d o && negb (null (d2 o))).

(** Going through [n] cells of the data. E.g. data_raster.hpp:2348. *)
Definition read_data (n : nat) (o : obj) : M unit := if is2d o then touch (d2 o) n else touch (d1 o) n.

(** data_raster.hpp:2541-2571, 2725-2740, 2782-2801: GetValue and SetValue of the
    cells of the grid; with positions, these are searched. *)
Definition Access (o : obj) : M unit :=
  if negb (valid o) then ret tt
  else if calc o && negb (null (pos o)) && negb (null (idx o)) then
    let! _ := touch (idx o) (ncells o) in read_data (ncells o) o
  else read_data (grid o) o.

(** data_raster.hpp:3799-3869 CalculateValidPositionsFromGridData, [k] cells being
    valid. *)
Definition CalculateValid (k : nat) (o : obj) : M obj :=
  let! _ := read_data (grid o) o in
  let! d := (if is2d o then let! _ := release2 (d2 o) in let! b := init2 k None in ret (d1 o, b)
             else let! _ := release1 (d1 o) in let! b := init1 k None in ret (b, d2 o)) in
  let! p := init2 k (pos o) in
  let! i := init1 k (idx o) in
  let o' := set_places (set_data o (fst d) (snd d) k) p i true true k in
  match k with
  | O => ret o'
  | _ => let! _ := read_data k o' in let! _ := touch p k in let! _ := touch i k in ret o'
  end.

(** data_raster.hpp:2805-2813 SetCalcPositions and 3872-3884, no mask. *)
Definition SetCalcPositions (k : nat) (o : obj) : M obj :=
  if negb (valid o) then ret o
  else if calc o && (negb (null (pos o)) || negb (null (idx o))) then ret o
  else if null (pos o) || null (idx o) then CalculateValid k (set_places o (pos o) (idx o) true (store o) (ncells o))
  else ret (set_places o (pos o) (idx o) true (store o) (ncells o)).

(** data_raster.hpp:2641-2674: both GetRasterPositionData one after the other. *)
Definition GetPositions (k : nat) (o : obj) : M obj :=
  let! o := (if negb (null (pos o)) then ret o else if negb (valid o) then ret o else CalculateValid k o) in
  if negb (null (idx o)) then ret o else if negb (valid o) then ret o else CalculateValid k o.

(** Run a computation over a list. A loop such as data_raster.hpp:2406-2416. *)
Fixpoint mapM {A B} (f : A -> M B) (l : list A) : M (list B) :=
  match l with [] => ret [] | a :: t => let! b := f a in let! bs := mapM f t in ret (b :: bs) end.

(** data_raster.cpp:270-286 ~SubsetPositions. *)
Definition DestroySub (u : sub) : M unit :=
  let! _ := (if u_alloc u then release2 (u_lpos u) else ret tt) in
  let! _ := (if u_alloc u then release1 (u_lidx u) else ret tt) in
  let! _ := (if u_alloc u then release1 (u_global u) else ret tt) in
  let! _ := release1 (u_data u) in
  release2 (u_data2 u).

(** data_raster.cpp:239-268: the copying constructor. *)
Definition CopySub (deep : bool) (u : sub) : M sub :=
  if deep then
    let! g := init1_from (u_n u) None (u_global u) in
    let! p := init2_from (u_n u) None (u_lpos u) in
    let! i := init1_from (u_n u) None (u_lidx u) in
    let! d := (if null (u_data u) then ret None else init1_from (u_n u) None (u_data u)) in
    let! e := (if null (u_data2 u) then ret None else init2_from (u_n u) None (u_data2 u)) in
    ret (mkU (u_n u) true p i g d e)
  else ret (mkU (u_n u) false (u_lpos u) (u_lidx u) (u_global u) (u_data u) (u_data2 u)).

(** data_raster.hpp:1100-1128 SetData, Set2DData, from arrays of the right length. *)
Definition SetSubData (u : sub) : M sub :=
  let! d := (match u_data u with Some _ => let! _ := touch (u_data u) (u_n u) in ret (u_data u) | None => let! b := new (u_n u) in ret (Some b) end) in
  ret (mkU (u_n u) (u_alloc u) (u_lpos u) (u_lidx u) (u_global u) d (u_data2 u)).
(** data_raster.hpp:1113-1128. *)
Definition SetSubData2 (u : sub) : M sub :=
  let! d := (match u_data2 u with Some _ => let! _ := touch (u_data2 u) (u_n u) in ret (u_data2 u) | None => let! b := new (u_n u) in ret (Some b) end) in
  ret (mkU (u_n u) (u_alloc u) (u_lpos u) (u_lidx u) (u_global u) (u_data u) d).

(** data_raster.hpp:2336-2404 BuildSubSet: [ns] are the numbers of cells of the
    subsets found, [k] that of the valid cells. *)
Definition BuildSub (n : nat) : M sub :=
  let! g := init1 n None in let! p := init2 n None in let! i := init1 n None in ret (mkU n true p i g None None).
(** data_raster.hpp:2336-2404. *)
Definition BuildSubSet (k : nat) (ns : list nat) (o : obj) : M obj :=
  if negb (valid o) then ret o
  else
    let! o := (if null (pos o) || null (idx o) then SetCalcPositions k o else ret o) in
    match subs o with
    | _ :: _ => ret o
    | [] =>
        let! _ := read_data (ncells o) o in
        let! _ := touch (idx o) (ncells o) in
        let! us := mapM BuildSub ns in ret (set_subs o us)
    end.

(** data_raster.hpp:2406-2416 ReleaseSubset, 2418-2421 RebuildSubSet. *)
Definition ReleaseSubset (o : obj) : M obj := let! _ := mapM DestroySub (subs o) in ret (set_subs o []).
(** data_raster.hpp:2418-2421. *)
Definition RebuildSubSet (k : nat) (ns : list nat) (o : obj) : M obj := let! o := ReleaseSubset o in BuildSubSet k ns o.

(** data_raster.hpp:2468-2475 ReleaseStatsMap2D. *)
Definition ReleaseStats (o : obj) : M obj :=
  let! _ := mapM release1 (match stats o with Some l => l | None => [] end) in ret (set_statistics o None (scalc o)).

(** data_raster.hpp:2438-2465 CalculateStatistics; utils_math.h:414-460: six arrays. *)
Definition CalculateStatistics (o : obj) : M obj :=
  if scalc o then ret o
  else if is2d o && negb (null (d2 o)) then
    let! _ := touch (d2 o) (ncells o) in
    let! bs := mapM (fun _ => new (nlyrs o)) (repeat tt 6) in
    ret (set_statistics o (Some (map Some bs)) true)
  else
    let! _ := touch (d1 o) (ncells o) in
    ret (set_statistics o (Some (match stats o with Some l => l | None => repeat None 6 end)) true).

(** data_raster.hpp:2477-2482 UpdateStatistics. *)
Definition UpdateStatistics (o : obj) : M obj :=
  let! o := (if is2d o && scalc o then ReleaseStats o else ret o) in
  CalculateStatistics (set_statistics o (stats o) false).

(** data_raster.hpp:3646-3717 Copy onto another object. [Throw]: [stats_2d_.at] of
    a map that has been emptied. *)
Definition throw {A} : M A := fun _ => Throw.
(** data_raster.hpp:3646-3717. *)
Definition Copy (o src : obj) : M obj :=
  let! _ := (if is2d o && negb (null (d2 o)) && (0 <? ncells o)%nat then release2 (d2 o) else ret tt) in
  let b2 := if is2d o && negb (null (d2 o)) && (0 <? ncells o)%nat then None else d2 o in
  let! _ := (if is2d o then ret tt else release1 (d1 o)) in
  let b1 := if is2d o then d1 o else None in
  let! _ := release2 (pos o) in
  let! _ := release1 (idx o) in
  let! o1 := (if scalc o then ReleaseStats o else ret o) in
  let! o2 := ReleaseSubset o1 in
  let two := is2d o || is2d src in
  let! d := (if is2d src then let! b := init2_from (ncells src) b2 (d2 src) in ret (b1, b)
             else let! b := init1_from (ncells src) b1 (d1 src) in ret (b, b2)) in
  let! p := (if calc src then init2_from (ncells src) None (pos src) else ret None) in
  let! i := (if calc src then init1_from (ncells src) None (idx src) else ret None) in
  let! st := (if scalc src && two then
                match stats src with
                | None => ret (stats o2)
                | Some l =>
                    match stats o2 with
                    | None => throw
                    | Some _ => let! bs := mapM (fun q => init1_from (nlyrs src) None q) l in ret (Some bs)
                    end
                end
              else ret (stats o2)) in
  let! us := mapM (CopySub true) (subs src) in
  ret (mkObj (fst d) (snd d) p i (calc src) (if calc src then true else store o2) two (scalc src)
         (ncells src) (nlyrs src) (grid src) st us (omask src) (if null (omask src) then false else ext src)).

(** data_raster.hpp:3640-3643: the copying constructor. *)
Definition CopyCtor (src : obj) : M obj := Copy (blank false) src.

(** data_raster.hpp:2816-2837 SetPositions with an array of the caller. *)
Definition SetPositions2D (same_length : bool) (b : nat) (o : obj) : M obj :=
  match pos o with
  | Some _ => if negb same_length then ret o
              else let! _ := release2 (pos o) in ret (set_places o (Some b) (idx o) true false (ncells o))
  | None => ret (set_places o (Some b) (idx o) true false (ncells o))
  end.
(** data_raster.hpp:2828-2837. *)
Definition SetPositions1D (same_length : bool) (b : nat) (o : obj) : M obj :=
  match idx o with
  | Some _ => if negb same_length then ret o
              else let! _ := release1 (idx o) in ret (set_places o (pos o) (Some b) true false (ncells o))
  | None => ret (set_places o (pos o) (Some b) true false (ncells o))
  end.

(** How the raster lies to its mask (data_raster.hpp:3899-3998): does any cell lie
    under the mask, is the extent of values that of the mask, are all mask cells
    matched; cells under the mask with a value, rows times columns of their extent,
    valid cells of the mask; cells left in each subset of the mask. *)
Record lie := mkLie { l_any : bool; l_within : bool; l_exact : bool; l_cells : nat; l_grid : nat; l_valid : nat; l_subs : nat -> nat }.

(** data_raster.hpp:4185-4252: a subset taken from the mask is dropped, kept, or
    given new arrays; its values are forgotten then. *)
Definition fit_sub (redo : bool) (un : sub * nat) : M (list sub) :=
  let (u, n) := un in
  match n with
  | O => let! _ := DestroySub u in ret []
  | _ =>
      if redo then
        let! _ := (if u_alloc u then let! _ := release1 (u_global u) in let! _ := release2 (u_lpos u) in release1 (u_lidx u) else ret tt) in
        let! g := init1 n None in let! p := init2 n None in let! i := init1 n None in ret [mkU n true p i g None None]
      else ret [u]
  end.

(** data_raster.hpp:3886-4260 MaskAndCalculateValidPosition with a mask [m] that
    has none itself: result, object and mask afterwards. *)
Definition Masking (l : lie) (o m : obj) : M (bool * obj * obj) :=
  let! m := (if negb (calc m) then SetCalcPositions (l_valid l) m else ret m) in
  let! m := (if negb (null (pos m)) then ret m else if negb (valid m) then ret m else CalculateValid (l_valid l) m) in
  let! _ := touch (pos m) (ncells m) in
  let old := grid o in
  let! _ := Access o in
  if negb (l_any l) then ret (false, o, m)
  else
    let has := match subs m with [] => false | _ => true end in
    let! o := (if has then
                 let! o := ReleaseSubset o in
                 let! us := mapM (CopySub true) (subs m) in ret (set_subs o us)
               else ret o) in
    let keep := l_within l || ext o in
    let recalc := calc o && (negb (l_exact l) || negb keep) in
    let full := negb keep && negb (calc o) in
    let c := if keep then true else calc o in
    let redo := has && negb (l_exact l) && negb keep in
    let o := set_grid o (if keep then grid m else l_grid l) in
    let! _ := release2 (pos o) in
    let! _ := release1 (idx o) in
    let! om := (if recalc then
                  let! p := init2 (l_cells l) None in
                  let! i := init1 (l_cells l) None in
                  ret (set_places o p i c true (l_cells l), m)
                else if c then
                  let! m := GetPositions (l_valid l) m in
                  ret (set_places o (pos m) (idx m) c false (ncells m), m)
                else ret (set_places o None None c false (l_grid l), m)) in
    let (o, m) := om in
    let! o := (if full && (old =? ncells o)%nat then ret o
               else if is2d o && negb (null (d2 o)) then
                 let! _ := release2 (d2 o) in let! b := init2 (ncells o) None in ret (set_data o (d1 o) b (ncells o))
               else let! _ := release1 (d1 o) in let! b := init1 (ncells o) None in ret (set_data o b (d2 o) (ncells o))) in
    let! o := (if has then
                 let! _ := touch (pos m) (ncells m) in
                 let! _ := Access o in
                 let! us := mapM (fit_sub redo) (combine (subs o) (map (l_subs l) (seq 0 (length (subs o))))) in ret (set_subs o (concat us))
               else ret o) in
    ret (true, if full || recalc then set_mask o None else o, m).

(** data_raster.hpp:2209-2254: the constructors from a mask and the values of its
    valid cells, an array of the caller of which [n] are given. *)
Definition FromMask (two : bool) (k n lyrs id : nat) (m : obj) : M (obj * obj) :=
  let! m := GetPositions k m in
  if (n =? ncells m)%nat then
    let! b := new n in
    ret (mkObj (if two then None else Some b) (if two then Some b else None) (pos m) (idx m) false false two false
           (ncells m) lyrs (grid m) (Some (repeat None 6)) [] (Some id) true, m)
  else
    ret (mkObj None None (pos m) (idx m) false false two false (ncells m) lyrs 0 (Some (repeat None 6)) [] (Some id) true, m).

(** data_raster.hpp:2327-2335 ~clsRasterData. *)
Definition Destroy (o : obj) : M unit :=
  let! _ := release1 (d1 o) in
  let! _ := (if store o then release2 (pos o) else ret tt) in
  let! _ := (if store o then release1 (idx o) else ret tt) in
  let! _ := (if is2d o then release2 (d2 o) else ret tt) in
  let! _ := (if is2d o && scalc o then ReleaseStats o else ret o) in
  let! _ := ReleaseSubset o in ret tt.

(** data_raster.hpp:2079-2086, 2108-2115: the constructors with the text of a
    coordinate system. They make another object from the array, which ends with
    the statement; the members of the object itself get no values. *)
Definition FromArrayText (two : bool) (n lyrs : nat) (b : nat) : M unit :=
  Destroy (mkObj (if two then None else Some b) (if two then Some b else None) None None false false two false n lyrs n (Some (repeat None 6)) [] None false).

(** ** Histories *)
(** Memory and the rasters alive. Rasters are numbered by creation.
    A program using data_raster.hpp:1190-1999. *)
Record world := mkWorld { w_heap : heap; w_count : nat; w_objs : list (nat * obj) }.
(** A program using data_raster.hpp:1190-1999. *)
Definition nothing : world := mkWorld (mkHeap 0 []) 0 [].
(** A program using data_raster.hpp:1190-1999. *)
Fixpoint objof (l : list (nat * obj)) (i : nat) : option obj :=
  match l with [] => None | (j, o) :: t => if Nat.eqb i j then Some o else objof t i end.
(** A program using data_raster.hpp:1190-1999. *)
Fixpoint objput (l : list (nat * obj)) (i : nat) (o : obj) : list (nat * obj) :=
  match l with [] => [] | (j, q) :: t => if Nat.eqb i j then (i, o) :: t else (j, q) :: objput t i o end.
(** A program using data_raster.hpp:1190-1999. *)
Fixpoint objdrop (l : list (nat * obj)) (i : nat) : list (nat * obj) :=
  match l with [] => [] | (j, q) :: t => if Nat.eqb i j then t else (j, q) :: objdrop t i end.

(** Calls a program makes on the rasters [i], [j]; [n] cells, [l] layers, [k] valid
    cells. The functions of data_raster.hpp:2079-4260 modelled above. *)
Inductive call :=
| New (n : nat) | New2 (n lyrs : nat)
| Use (i : nat)                              (* GetValue, SetValue, ... *)
| Calc (i k : nat)                           (* SetCalcPositions, no mask *)
| CalcMasked (i : nat) (l : lie)             (* SetCalcPositions with a mask *)
| Build (i k : nat) (ns : list nat) | Rebuild (i k : nat) (ns : list nat) | Forget (i : nat)
| Fill (i s : nat) | Fill2 (i s : nat)       (* SetData, Set2DData of subset [s] *)
| Stats (i : nat) | Update (i : nat)
| CopyNew (j : nat) | CopyTo (i j : nat)
| ReadMasked (two : bool) (n lyrs : nat) (j : nat) (c e : bool) (l : lie) (* from a file, with a mask *)
| MaskAgain (i : nat) (l : lie)              (* SetUseMaskExt *)
| WithMask (two : bool) (j k n lyrs : nat)   (* from a mask and values *)
| Give (i n : nat)                           (* SetPositions with [n] new positions *)
| Delete (i : nat).

(** A call on one object, a new object, a subset of an object; see [call] for data_raster.hpp:2079-4260. *)
Definition with_obj (w : world) (i : nat) (f : obj -> M obj) : outcome world :=
  match objof (w_objs w) i with
  | None => Throw
  | Some o => let* x := f o (w_heap w) in Ok (mkWorld (snd x) (w_count w) (objput (w_objs w) i (fst x)))
  end.
(** A call on one object, a new object, a subset of an object; see [call] for data_raster.hpp:2079-4260. *)
Definition add_obj (w : world) (m : M obj) : outcome world :=
  let* x := m (w_heap w) in Ok (mkWorld (snd x) (S (w_count w)) (w_objs w ++ [(w_count w, fst x)])).
(** A call on one object, a new object, a subset of an object; see [call] for data_raster.hpp:2079-4260. *)
Definition in_sub (f : sub -> M sub) (s : nat) (o : obj) : M obj :=
  match nth_error (subs o) s with
  | None => throw
  | Some u => let! v := f u in ret (set_subs o (firstn s (subs o) ++ v :: skipn (S s) (subs o)))
  end.

(** Mask the raster again unless there is nothing to do.
    data_raster.hpp:2805-2813, 3886-4260. *)
Definition with_mask (w : world) (i : nat) (idle : obj -> bool) (prepare : obj -> obj) (l : lie) : outcome world :=
  match objof (w_objs w) i with
  | None => Throw
  | Some o =>
      match omask o with
      | None => Throw
      | Some j =>
          if idle o then Ok w
          else
            match objof (w_objs w) j with
            | None => UB
            | Some m =>
                match omask m with
                | Some _ => Throw
                | None =>
                    let* x := Masking l (prepare o) m (w_heap w) in
                    let '(_, o, m) := fst x in
                    Ok (mkWorld (snd x) (w_count w) (objput (objput (w_objs w) j m) i o))
                end
            end
      end
  end.

(** One call. A call naming an object or subset that does not exist has no meaning
    (Throw), nor has one that would mask with a masked raster.
    See [call] for data_raster.hpp:2079-4260. *)
Definition step (w : world) (c : call) : outcome world :=
  match c with
  | New n => add_obj w (FromArray n)
  | New2 n l => add_obj w (FromArray2D n l)
  | Use i => with_obj w i (fun o => let! _ := Access o in ret o)
  | Calc i k => with_obj w i (fun o => match omask o with None => SetCalcPositions k o | Some _ => throw end)
  | Build i k ns => with_obj w i (BuildSubSet k ns)
  | Rebuild i k ns => with_obj w i (RebuildSubSet k ns)
  | Forget i => with_obj w i ReleaseSubset
  | Fill i s => with_obj w i (in_sub SetSubData s)
  | Fill2 i s => with_obj w i (in_sub SetSubData2 s)
  | Stats i => with_obj w i CalculateStatistics
  | Update i => with_obj w i UpdateStatistics
  | CopyNew j => match objof (w_objs w) j with None => Throw | Some s => add_obj w (CopyCtor s) end
  | CopyTo i j => if Nat.eqb i j then Throw else match objof (w_objs w) j with None => Throw | Some s => with_obj w i (fun o => Copy o s) end
  | ReadMasked two n lyrs j c e l =>
      match objof (w_objs w) j with
      | None => Throw
      | Some m =>
          match omask m with
          | Some _ => Throw
          | None =>
              let* x := (let! b := new n in
                         let o := mkObj (if two then None else Some b) (if two then Some b else None) None None c false two false n lyrs n (Some (repeat None 6)) [] (Some j) e in
                         Masking l o m) (w_heap w) in
              let '(_, o, m) := fst x in
              Ok (mkWorld (snd x) (S (w_count w)) (objput (w_objs w) j m ++ [(w_count w, o)]))
          end
      end
  | CalcMasked i l =>
      with_mask w i (fun o => negb (valid o) || (calc o && (negb (null (pos o)) || negb (null (idx o))))) (fun o => set_places o (pos o) (idx o) true (store o) (ncells o)) l
  | MaskAgain i l => with_mask w i (fun o => negb (valid o) || ext o) (fun o => set_ext o true) l
  | WithMask two j k n lyrs =>
      match objof (w_objs w) j with
      | None => Throw
      | Some m =>
          let* x := FromMask two k n lyrs j m (w_heap w) in
          Ok (mkWorld (snd x) (S (w_count w)) (objput (w_objs w) j (snd (fst x)) ++ [(w_count w, fst (fst x))]))
      end
  | Give i n => with_obj w i (fun o => let! b := new n in SetPositions2D (n =? ncells o)%nat b o)
  | Delete i =>
      match objof (w_objs w) i with
      | None => Throw
      | Some o => let* x := Destroy o (w_heap w) in Ok (mkWorld (snd x) (w_count w) (objdrop (w_objs w) i))
      end
  end.

(** See [call] for data_raster.hpp:2079-4260. *)
Fixpoint run (w : world) (cs : list call) : outcome world :=
  match cs with [] => Ok w | c :: t => let* w' := step w c in run w' t end.
