(** Subsets of a raster (src/data_raster.hpp, src/data_raster.cpp): building,
    filling with data, combining, writing. Proof-free.

    Simplifications valid for the whole file: allocation always succeeds; a null
    array and an array of length zero are both written as the empty list where
    only elements are accessed; status messages are dropped; [int] arithmetic
    does not overflow. *)
From Coq Require Import ZArith QArith List Bool.
From Verif Require Import Base RasterModel CoordModel.
Import ListNotations.
Open Scope Z_scope.
Open Scope outcome_scope.

(** [std::map<int, A>]: entries by ascending key. *)
Section ZMap.
Context {A : Type}.
(** E.g. data_raster.hpp:2350-2364. *)
Fixpoint zfind (m : list (Z * A)) (k : Z) : option A :=
  match m with
  | [] => None
  | (k', a) :: t => if k =? k' then Some a else zfind t k
  end.
(** Assign to the entry of [k], inserting it in order when absent.
    E.g. data_raster.hpp:2350-2364. *)
Fixpoint zput (m : list (Z * A)) (k : Z) (a : A) : list (Z * A) :=
  match m with
  | [] => [(k, a)]
  | (k', a') :: t => if k <? k' then (k, a) :: m else if k =? k' then (k, a) :: t else (k', a') :: zput t k a
  end.
End ZMap.

Section Subset.
Context {T D : Type}.
(** utils_math.h:140-143. *)
Variable feq : T -> T -> bool.       (* FloatEqual on cell values *)
(** utils_math.h:140-143. *)
Variable feqD : D -> D -> bool.      (* FloatEqual on doubles *)
(** basic.h:325. *)
Variable toint : T -> option Z.      (* CVT_INT, None = undefined *)
(** basic.h:331. *)
Variable toD : T -> D.               (* CVT_DBL *)
(** data_raster.hpp:2997-3008. *)
Variable ofD : D -> outcome T.       (* static_cast<T> of a double *)
(** basic.h:244-246. *)
Variable dNODATA : D.                (* NODATA_VALUE, -9999. *)

(** data_raster.hpp:1158-1170, members of SubsetPositions (a 2D array is the
    list of its rows; [None] = null). *)
Record subset := mkSub {
  s_usable : bool; s_n : Z; s_lyrs : Z;
  s_srow : Z; s_erow : Z; s_scol : Z; s_ecol : Z;
  s_alloc : bool;
  s_lpos : option (list (Z * Z)); s_lidx : option (list Z); s_global : option (list Z);
  s_data : option (list D); s_data2 : option (list (list D))
}.

(** data_raster.cpp:210-225, 231-237: constructor from a window. *)
Definition NewSubset (srow erow scol ecol : Z) : subset :=
  mkSub true 0 (-1) srow erow scol ecol false None None None None None.

(** data_raster.hpp:2366-2369, 2378: window update and cell count. *)
Definition extend (s : subset) (row col : Z) : subset :=
  mkSub (s_usable s) (s_n s + 1) (s_lyrs s)
    (if row <? s_srow s then row else s_srow s) (if s_erow s <? row then row else s_erow s)
    (if col <? s_scol s then col else s_scol s) (if s_ecol s <? col then col else s_ecol s)
    (s_alloc s) (s_lpos s) (s_lidx s) (s_global s) (s_data s) (s_data2 s).

(** Assignment to members of data_raster.hpp:1158-1170. *)
Definition set_global (s : subset) (g : option (list Z)) : subset :=
  mkSub (s_usable s) (s_n s) (s_lyrs s) (s_srow s) (s_erow s) (s_scol s) (s_ecol s) (s_alloc s)
        (s_lpos s) (s_lidx s) g (s_data s) (s_data2 s).
(** Assignment to members of data_raster.hpp:1158-1170. *)
Definition set_local (s : subset) (lp : option (list (Z * Z))) (li : option (list Z)) : subset :=
  mkSub (s_usable s) (s_n s) (s_lyrs s) (s_srow s) (s_erow s) (s_scol s) (s_ecol s) true
        lp li (s_global s) (s_data s) (s_data2 s).
(** Assignment to members of data_raster.hpp:1158-1170. *)
Definition set_sdata (s : subset) (lyrs : Z) (d : option (list D)) (d2 : option (list (list D))) (us : bool) : subset :=
  mkSub us (s_n s) lyrs (s_srow s) (s_erow s) (s_scol s) (s_ecol s) (s_alloc s)
        (s_lpos s) (s_lidx s) (s_global s) d d2.

(** data_raster.hpp:2350-2353, [groups.find(groupv)]: the mapped id, or the value itself. *)
Definition group_of (groups : list (Z * Z)) (z : Z) : Z :=
  match zfind groups z with Some g => g | None => z end.

(** data_raster.hpp:2348-2378, one cell. State: [subset_] and [global_idx]. *)
Definition build_step (r : raster T) (ix : list Z) (groups : list (Z * Z))
    (st : list (Z * subset) * list (Z * list Z)) (vi : Z) : outcome (list (Z * subset) * list (Z * list Z)) :=
  let subs := fst st in let gidx := snd st in
  let* curv := GetValueByIndex r vi 1 in
  if feq curv (r_nodata r) then Ok st
  else match toint curv with
  | None => UB
  | Some z =>
      let groupv := group_of groups z in
      let* p := aget ix vi in
      if r_cols r =? 0 then UB else
      let row := Z.quot p (r_cols r) in
      let col := Z.rem p (r_cols r) in
      let s := match zfind subs groupv with Some s => s | None => NewSubset row row col col end in
      let l := match zfind gidx groupv with Some l => l | None => [] end in
      Ok (zput subs groupv (extend s row col), zput gidx groupv (l ++ [vi]))
  end.

(** data_raster.hpp:2381-2384: global_[it2 - begin] = *it2 over the collected
    indices. *)
Definition fill_global (gidx : list (Z * list Z)) (ks : Z * subset) : outcome (Z * subset) :=
  let k := fst ks in let s := snd ks in
  let l := match zfind gidx k with Some l => l | None => [] end in
  let a := match init1d None (s_n s) 0 with Some a => a | None => [] end in
  let* a' := ofold (fun a iv => aset a (fst iv) (snd iv)) (combine (zseq (Z.of_nat (length l))) l) a in
  Ok (k, set_global s (Some a')).

(** data_raster.hpp:2387-2401: local positions. *)
Definition fill_local (r : raster T) (ix : list Z) (ks : Z * subset) : outcome (Z * subset) :=
  let k := fst ks in let s := snd ks in
  let ncols := s_ecol s - s_scol s + 1 in
  let* g := deref (s_global s) in
  let lp0 := match init2d None (s_n s) (-1, -1) with Some a => a | None => [] end in
  let li0 := match init1d None (s_n s) (-1) with Some a => a | None => [] end in
  let* pl := ofold (fun pl i =>
       let* gi := aget g i in
       let* p := aget ix gi in
       if r_cols r =? 0 then UB else
       let lr := Z.quot p (r_cols r) - s_srow s in
       let lc := Z.rem p (r_cols r) - s_scol s in
       let* lp := aset (fst pl) i (lr, lc) in
       let* li := aset (snd pl) i (lr * ncols + lc) in
       Ok (lp, li)) (zseq (s_n s)) (lp0, li0) in
  Ok (k, set_local s (Some (fst pl)) (Some (snd pl))).

(** A loop filling an array, e.g. data_raster.hpp:3123-3132. *)
Fixpoint omapm {A B} (f : A -> outcome B) (l : list A) : outcome (list B) :=
  match l with
  | [] => Ok []
  | a :: t => let* b := f a in let* bs := omapm f t in Ok (b :: bs)
  end.

(** data_raster.hpp:2338-2404 BuildSubSet. [subs] is [subset_] before the call,
    [ord] the schedule of the position calculation. *)
Definition BuildSubSet (ord : list nat) (r : raster T) (subs : list (Z * subset)) (groups : list (Z * Z))
    : outcome (raster T * list (Z * subset) * bool) :=
  if negb (ValidateRasterData r) then Ok (r, subs, false)
  else
    let* rb := (if isnull (r_pos r) || isnull (r_posidx r) then SetCalcPositions feq ord r else Ok (r, true)) in
    let r := fst rb in
    if negb (snd rb) then Ok (r, subs, false)
    else match subs with
    | _ :: _ => Ok (r, subs, true)
    | [] =>
        (* pos_idx_ is dereferenced only for the cells visited *)
        let ix := match r_posidx r with Some ix => ix | None => [] end in
        let* st := ofold (build_step r ix groups) (zseq (r_ncells r)) ([], []) in
        let* s1 := omapm (fill_global (snd st)) (fst st) in
        let* s2 := omapm (fill_local r ix) s1 in
        Ok (r, s2, true)
    end.

(** data_raster.hpp:2406-2421 ReleaseSubset, RebuildSubSet: the old subsets are deleted. *)
Definition RebuildSubSet (ord : list nat) (r : raster T) (subs : list (Z * subset)) (groups : list (Z * Z))
    : outcome (raster T * list (Z * subset) * bool) := BuildSubSet ord r [] groups.

(** data_raster.hpp:1099-1110 SetData: the caller's array is [data] ([None] = null). *)
Definition SetData (s : subset) (n : Z) (data : option (list T)) : outcome (subset * bool) :=
  if negb (n =? s_n s) then Ok (s, false)
  else match data with
  | None => Ok (s, false)
  | Some d =>
      let old := match s_data s with Some o => o | None => match init1d None (s_n s) dNODATA with Some a => a | None => [] end end in
      let* d' := ofold (fun o i => let* v := aget d i in aset o i (toD v)) (zseq (s_n s)) old in
      Ok (set_sdata s 1 (Some d') (s_data2 s) true, true)
  end.

(** data_raster.hpp:1113-1128 Set2DData. An existing array is reused whatever
    its number of layers. *)
Definition Set2DData (s : subset) (n lyr : Z) (data : option (list (list T))) : outcome (subset * bool) :=
  if negb (n =? s_n s) then Ok (s, false)
  else match data with
  | None => Ok (s, false)
  | Some d =>
      let old := match s_data2 s with Some o => o | None => repeat (repeat dNODATA (Z.to_nat lyr)) (Z.to_nat (s_n s)) end in
      let* d' := ofold (fun o i =>
           let* src := aget d i in
           ofold (fun o j =>
             let* v := aget src j in
             let* row := aget o i in
             let* row' := aset row j (toD v) in
             aset o i row') (zseq lyr) o) (zseq (s_n s)) old in
      Ok (set_sdata s lyr (s_data s) (Some d') true, true)
  end.

(** data_raster.hpp:2931-2940, number of layers of a reclassification table: [None] when
    rows differ. *)
Fixpoint recls_layers (recls : list (Z * list D)) (acc : Z) : option Z :=
  match recls with
  | [] => Some acc
  | (_, v) :: t =>
      if acc <? 0 then recls_layers t (Z.of_nat (length v))
      else if acc =? Z.of_nat (length v) then recls_layers t acc else None
  end.

(** data_raster.hpp:2941-2954, number of layers of the usable subsets: [None] when a usable
    subset has no data and there is no table, or when counts differ. *)
Fixpoint subset_layers (norecls : bool) (subs : list (Z * subset)) (acc : Z) : option Z :=
  match subs with
  | [] => Some acc
  | (_, s) :: t =>
      if negb (s_usable s) then subset_layers norecls t acc
      else if isnull (s_data s) && isnull (s_data2 s) && norecls then None
      else if acc <? 0 then subset_layers norecls t (s_lyrs s)
      else if s_lyrs s =? acc then subset_layers norecls t acc else None
  end.

(** data_raster.hpp:2997-3008, 3080-3091: value taken from the reclassification table. *)
Definition recls_value (r : raster T) (id : Z) (gidx ilyr : Z) (out_origin : bool)
    (recls : list (Z * list D)) (default : D) : outcome T :=
  let* key := (if out_origin then
                 match r_data r with
                 | Some d => let* v := aget d gidx in match toint v with Some z => Ok z | None => UB end
                 | None => match r_data2d r with
                           | Some d => let* c := aget d gidx in let* v := aget c ilyr in
                                       match toint v with Some z => Ok z | None => UB end
                           | None => Ok id
                           end
                 end
               else Ok id) in
  let v := match zfind recls key with
           | Some l => if ilyr <? Z.of_nat (length l) then nth (Z.to_nat ilyr) l default else default
           | None => default
           end in
  ofD v.

(** Value written for cell [vi], layer [ilyr] of a subset by the combination
    (2994-3021): [None] = the "will not happen" branch. In data_raster.hpp:2994-3021. *)
Definition comb_value (r : raster T) (id : Z) (s : subset) (direct : bool) (lyrs : Z) (out_origin : bool)
    (recls : list (Z * list D)) (default : D) (vi ilyr gidx : Z) : outcome (option T) :=
  match recls with
  | _ :: _ => let* v := recls_value r id gidx ilyr out_origin recls default in Ok (Some v)
  | [] =>
      if direct then let* v := ofD default in Ok (Some v)
      else if negb out_origin && (1 <? lyrs) && negb (isnull (s_data2 s)) then
        let* d := deref (s_data2 s) in let* c := aget d vi in let* x := aget c ilyr in
        let* v := ofD x in Ok (Some v)
      else if negb out_origin && (lyrs =? 1) && negb (isnull (s_data s)) then
        let* d := deref (s_data s) in let* x := aget d vi in
        let* v := ofD x in Ok (Some v)
      else Ok None
  end.

(** Loop with an early [return false]: state [None]. For data_raster.hpp:2977-3024. *)
Definition try_write {A} (st : option (list A)) (m : outcome (option (Z * A))) : outcome (option (list A)) :=
  match st with
  | None => Ok None
  | Some a => let* iv := m in
              match iv with
              | None => Ok None
              | Some (i, v) => let* a' := aset a i v in Ok (Some a')
              end
  end.

(** All (cell, layer) pairs of the loops 2984-2985. In data_raster.hpp:2984-2985. *)
Definition cell_layers (n lyrs : Z) : list (Z * Z) :=
  flat_map (fun vi => map (fun l => (vi, l)) (zseq lyrs)) (zseq n).

(** data_raster.hpp:2977-3024, one subset. *)
Definition comb_subset (r : raster T) (lyrs : Z) (out_origin include_nodata : bool) (recls : list (Z * list D))
    (default : D) (st : option (list T)) (ks : Z * subset) : outcome (option (list T)) :=
  let s := snd ks in
  let direct := negb (s_usable s) && negb (feqD (toD (r_nodata r)) default) in
  if negb (s_usable s) && negb direct then Ok st
  else
    ofold (fun st vl =>
      try_write st
        (let* g := deref (s_global s) in
         let* gidx := aget g (fst vl) in
         let* ix := deref (r_posidx r) in
         let* p := aget ix gidx in
         let tmprc := if include_nodata then p else gidx in
         let* v := comb_value r (fst ks) s direct lyrs out_origin recls default (fst vl) (snd vl) gidx in
         Ok (match v with None => None | Some v => Some (tmprc * lyrs + snd vl, v) end)))
      (cell_layers (s_n s) lyrs) st.

(** data_raster.hpp:2924-3029 PrepareCombSubsetData. [dv] is the member
    [default_value_]. Result: values, length, layers; [None] = returned false. *)
Definition PrepareCombSubsetData (r : raster T) (dv : D) (subs : list (Z * subset)) (out_origin include_nodata : bool)
    (recls : list (Z * list D)) (default : D) : outcome (option (list T * Z * Z)) :=
  match subs with
  | [] => Ok None
  | _ =>
    match recls_layers recls (-1) with
    | None => Ok None
    | Some lyr_recls =>
      match subset_layers (match recls with [] => true | _ => false end) subs (-1) with
      | None => Ok None
      | Some lyrs_subset =>
        let lyrs := if out_origin then (if 0 <? lyr_recls then lyr_recls else r_nlyrs r)
                    else (if (lyrs_subset <? 0) && (0 <? lyr_recls) then lyr_recls else lyrs_subset) in
        if lyrs <? 0 then Ok None
        else
          let default := if feqD default dNODATA then dv else default in
          let gncells := if include_nodata then r_rows r * r_cols r else r_ncells r in
          let len := gncells * lyrs in
          let data := match init1d None len (r_nodata r) with Some a => a | None => [] end in
          let* res := ofold (comb_subset r lyrs out_origin include_nodata recls default) subs (Some data) in
          Ok (match res with None => None | Some d => Some (d, len, lyrs) end)
      end
    end
  end.

(** data_raster.hpp:3079-3103: value written for a cell of one subset. *)
Definition sub_value (r : raster T) (id : Z) (s : subset) (lyrs : Z) (out_origin : bool)
    (recls : list (Z * list D)) (default : D) (vi ilyr gidx : Z) : outcome (option T) :=
  match recls with
  | _ :: _ => let* v := recls_value r id gidx ilyr out_origin recls default in Ok (Some v)
  | [] =>
      if out_origin && (1 <? lyrs) && negb (isnull (r_data2d r)) then
        let* d := deref (r_data2d r) in let* c := aget d gidx in let* v := aget c ilyr in Ok (Some v)
      else if out_origin && (lyrs =? 1) && negb (isnull (r_data r)) then
        let* d := deref (r_data r) in let* v := aget d gidx in Ok (Some v)
      else if negb out_origin && (1 <? lyrs) && negb (isnull (s_data2 s)) then
        let* d := deref (s_data2 s) in let* c := aget d vi in let* x := aget c ilyr in
        let* v := ofD x in Ok (Some v)
      else if negb out_origin && (lyrs =? 1) && negb (isnull (s_data s)) then
        let* d := deref (s_data s) in let* x := aget d vi in
        let* v := ofD x in Ok (Some v)
      else Ok None
  end.

(** data_raster.hpp:3032-3111 PrepareSubsetData. *)
Definition PrepareSubsetData (r : raster T) (dv : D) (id : Z) (s : subset) (out_origin include_nodata : bool)
    (recls : list (Z * list D)) (default : D) : outcome (option (list T * Z * Z)) :=
  match recls_layers recls (-1) with
  | None => Ok None
  | Some lyr_recls =>
      let lyrs := if out_origin then (if 0 <? lyr_recls then lyr_recls else r_nlyrs r) else s_lyrs s in
      if lyrs <? 0 then Ok None
      else
        let nrows := s_erow s - s_srow s + 1 in
        let ncols := s_ecol s - s_scol s + 1 in
        let default := if feqD default dNODATA then dv else default in
        let ncells := if include_nodata then nrows * ncols else s_n s in
        let len := ncells * lyrs in
        let data := match init1d None len (r_nodata r) with Some a => a | None => [] end in
        let* res := ofold (fun st vl =>
             try_write st
               (let* li := deref (s_lidx s) in
                let* j0 := aget li (fst vl) in
                let* g := deref (s_global s) in
                let* gidx := aget g (fst vl) in
                let j := if include_nodata then j0 else fst vl in
                let* v := sub_value r id s lyrs out_origin recls default (fst vl) (snd vl) gidx in
                Ok (match v with None => None | Some v => Some (j * lyrs + snd vl, v) end)))
             (cell_layers (s_n s) lyrs) (Some data) in
        Ok (match res with None => None | Some d => Some (d, len, lyrs) end)
  end.

(** data_raster.hpp:1136-1156 SubsetPositions::Output: one window-sized array per
    layer. *)
Definition Output (nodata : T) (s : subset) : outcome (list (list T)) :=
  if isnull (s_data s) && isnull (s_data2 s) then Ok []
  else
    let full := (s_erow s - s_srow s + 1) * (s_ecol s - s_scol s + 1) in
    omapm (fun ilyr =>
      ofold (fun d vi =>
        let* li := deref (s_lidx s) in
        let* j := aget li vi in
        if (1 <? s_lyrs s) && negb (isnull (s_data2 s)) then
          let* d2 := deref (s_data2 s) in let* c := aget d2 vi in let* x := aget c ilyr in
          let* v := ofD x in aset d j v
        else if (s_lyrs s =? 1) && negb (isnull (s_data s)) then
          let* d1 := deref (s_data s) in let* x := aget d1 vi in
          let* v := ofD x in aset d j v
        else Ok d) (zseq (s_n s)) (match init1d None full nodata with Some a => a | None => [] end))
      (zseq (s_lyrs s)).

(** Geometry part of a header; data_raster.cpp:337-347 SubsetPositions::GetHeader. *)
Definition GetHeader (s : subset) (g : geo) : geo :=
  mkGeo (s_erow s - s_srow s + 1) (s_ecol s - s_scol s + 1)
        (inject_Z (s_scol s) * g_cs g + g_xll g)%Q
        (inject_Z (g_rows g - s_erow s - 1) * g_cs g + g_yll g)%Q (g_cs g).

(** A request to write one file: subset id in the name (0 = combined), layer
    number appended to the name (0 = none), geometry, CELLSNUM, LAYERS, cells.
    data_raster.hpp:2871-2921, 3114-3134. *)
Record request := mkReq { q_id : Z; q_lyr : Z; q_geo : geo; q_cells : Z; q_lyrs : Z; q_data : list T }.

(** What WriteRasterToFile answers to the n-th request.
    data_raster.hpp:2871-2921, 3114-3134. *)
Variable write_ok : list request -> request -> bool.

(** data_raster.hpp:3123-3132: [tmpdata1d] of layer [l]. *)
Definition layer_of (data : list T) (fsize lyrs l : Z) : outcome (list T) :=
  omapm (fun gi => aget data (gi * lyrs + l)) (zseq fsize).

(** data_raster.hpp:3114-3134 OutputFullsizeToFiles. The requests made so far
    and the flag; after a failure no further file is written ([&&]). *)
Definition OutputFullsize (log : list request) (id : Z) (g : geo) (cells hlyrs : Z) (data : list T) (fsize lyrs : Z)
    : outcome (list request * bool) :=
  if lyrs <? 1 then Ok (log, false)
  else if lyrs =? 1 then
    let q := mkReq id 0 g cells hlyrs data in Ok (log ++ [q], write_ok log q)
  else
    ofold (fun (st : list request * bool) l =>
      let* d := layer_of data fsize lyrs l in
      if snd st then
        let q := mkReq id (l + 1) g cells hlyrs d in Ok (fst st ++ [q], write_ok (fst st) q)
      else Ok st) (zseq lyrs) (log, true).

(** data_raster.hpp:2871-2921 OutputSubsetToFile. *)
Definition OutputSubsetToFile (r : raster T) (dv : D) (subs : list (Z * subset)) (out_origin out_combined : bool)
    (recls : list (Z * list D)) (default : D) : outcome (list request * bool) :=
  if negb (ValidateRasterData r) then Ok ([], false)
  else match subs with
  | [] => Ok ([], false)
  | _ =>
    if out_combined then
      let* p := PrepareCombSubsetData r dv subs out_origin true recls default in
      match p with
      | None => Ok ([], false)
      | Some (d, len, lyrs) =>
          if lyrs =? 0 then UB      (* sublen / sublyrs *)
          else OutputFullsize [] 0 (geo_of r) (Z.quot len lyrs) lyrs d (Z.quot len lyrs) lyrs
      end
    else
      ofold (fun (st : list request * bool) ks =>
        let s := snd ks in
        if negb (s_usable s) then Ok st
        else
          let* p := PrepareSubsetData r dv (fst ks) s out_origin true recls default in
          match p with
          | None => Ok st
          | Some (d, len, lyrs) =>
              if lyrs =? 0 then UB
              else if snd st then
                OutputFullsize (fst st) (fst ks) (GetHeader s (geo_of r)) (Z.quot len lyrs) lyrs d (Z.quot len lyrs) lyrs
              else Ok st
          end) subs ([], true)
  end.

End Subset.
Arguments mkSub {D}. Arguments s_usable {D}. Arguments s_n {D}. Arguments s_lyrs {D}.
Arguments s_srow {D}. Arguments s_erow {D}. Arguments s_scol {D}. Arguments s_ecol {D}.
Arguments s_alloc {D}. Arguments s_lpos {D}. Arguments s_lidx {D}. Arguments s_global {D}.
Arguments s_data {D}. Arguments s_data2 {D}. Arguments subset : clear implicits.
Arguments request : clear implicits.
