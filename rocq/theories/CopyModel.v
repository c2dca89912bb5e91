(** Statistics cache, [Copy], and the constructors taking a mask and the values
    of its valid cells (src/data_raster.hpp, src/data_raster.cpp). Proof-free.

    Simplifications valid for the whole file: allocation succeeds for every
    length that is not negative; status messages and GetCoreFileName of the path
    are dropped; arrays of two objects are separate values (which memory is
    shared or freed is the business of OwnModel); header keys other than the
    eight of InitialHeader are not represented. *)
From Coq Require Import ZArith QArith List Bool String.
From Verif Require Import Base StrModel MapModel RasterModel SubsetModel.
Import List ListNotations.
Open Scope Z_scope.
Open Scope outcome_scope.

(** data_raster.hpp:106-111, in the order of InitialStatsMap (data_raster.cpp:173-187). *)
Definition stats_names : list bytes :=
  map str ["VALID_CELLNUMBER"; "MIN"; "MAX"; "MEAN"; "STD"; "RANGE"]%string.

(** data_raster.hpp:2444-2449, 2455-2460: the order in which BasicStatistics delivers. *)
Definition derived_names : list bytes :=
  map str ["VALID_CELLNUMBER"; "MEAN"; "MAX"; "MIN"; "STD"; "RANGE"]%string.

(** A raster object: the members of RasterModel plus the path, the options, the
    data types, the mask (its identity), the statistics and the subsets
    (data_raster.hpp:1952-1999). [o_default] is [default_value_] as a double. *)
Record robj (T D : Type) : Type := mkRobj {
  o_r : raster T;
  o_default : D;
  o_path : bytes; o_opts : smap bytes; o_type : Z; o_outtype : Z;
  o_mask : option nat;
  o_stats : smap D;                       (* stats_ *)
  o_stats2 : smap (option (list D));      (* stats_2d_ *)
  o_scalc : bool;                         (* stats_calculated_ *)
  o_subset : list (Z * @subset D)         (* subset_ *)
}.
Arguments mkRobj {T D}. Arguments o_r {T D}. Arguments o_default {T D}. Arguments o_path {T D}.
Arguments o_opts {T D}. Arguments o_type {T D}. Arguments o_outtype {T D}. Arguments o_mask {T D}.
Arguments o_stats {T D}. Arguments o_stats2 {T D}. Arguments o_scalc {T D}. Arguments o_subset {T D}.

Section Obj.
Context {T D : Type}.
(** utils_math.h:140-143. *)
Variable feqD : D -> D -> bool.               (* FloatEqual on doubles *)
(** basic.h:244-246; data_raster.hpp:2034. *)
Variable dNODATA : D.                         (* NODATA_VALUE *)
(** basic.h:244-246; data_raster.hpp:2034. *)
Variable tNODATA : T.                         (* the default NoData value of the cell type *)
(** basic.h:244-246; data_raster.hpp:2034. *)
Variable tDefault : T.                        (* NODATA_VALUE converted to the cell type *)
(** BasicStatistics (utils_math.h:381-412, 414-460): six numbers, or six arrays
    with one number per layer. *)
Variable basic1 : list T -> Z -> T -> outcome (list D).
(** utils_math.h:414-460. *)
Variable basic2 : list (list T) -> Z -> Z -> T -> outcome (list (list D)).
(** RasterDataTypeInOptionals (data_raster.cpp:166-171). *)
Variable type_in_options : smap bytes -> Z.

Local Notation obj := (robj T D).

(** Assignments to groups of members (no /repo counterpart).
    The members of data_raster.hpp:1952-1999. *)
Definition set_r (o : obj) (r : raster T) : obj :=
  mkRobj r (o_default o) (o_path o) (o_opts o) (o_type o) (o_outtype o) (o_mask o)
         (o_stats o) (o_stats2 o) (o_scalc o) (o_subset o).
(** The members of data_raster.hpp:1952-1999. *)
Definition set_stats (o : obj) (s : smap D) (s2 : smap (option (list D))) (c : bool) : obj :=
  mkRobj (o_r o) (o_default o) (o_path o) (o_opts o) (o_type o) (o_outtype o) (o_mask o) s s2 c (o_subset o).
(** The members of data_raster.hpp:1952-1999. *)
Definition set_subset (o : obj) (m : list (Z * @subset D)) : obj :=
  mkRobj (o_r o) (o_default o) (o_path o) (o_opts o) (o_type o) (o_outtype o) (o_mask o)
         (o_stats o) (o_stats2 o) (o_scalc o) m.

(** data_raster.cpp:173-187 InitialStatsMap. *)
Definition InitialStatsMap (s : smap D) (s2 : smap (option (list D))) : smap D * smap (option (list D)) :=
  (fold_left (fun m k => emplace m k dNODATA) stats_names s,
   fold_left (fun m k => emplace m k None) stats_names s2).

(** [m.at(k) = v]: throws when the key is absent. E.g. data_raster.hpp:2444-2449. *)
Definition at_set {V} (m : smap V) (k : bytes) (v : V) : outcome (smap V) :=
  match lookup m k with Some _ => Ok (assign m k v) | None => Throw end.
(** [m.at(k)]. E.g. data_raster.hpp:2444-2449. *)
Definition at_get {V} (m : smap V) (k : bytes) : outcome V :=
  match lookup m k with Some v => Ok v | None => Throw end.

(** data_raster.hpp:2444-2449 / 2455-2460: [stats.at(name) = derived[i]], six times. *)
Definition put_derived {V} (m : smap V) (vs : list V) : outcome (smap V) :=
  ofold (fun m ik => let* v := aget vs (fst ik) in at_set m (snd ik) v) (combine (zseq 6) derived_names) m.

(** A possibly null array handed to a function that only indexes it.
    data_raster.hpp:2444, 2456. *)
Definition elems {A} (p : option (list A)) : list A := match p with Some l => l | None => [] end.

(** data_raster.hpp:2438-2465 CalculateStatistics. *)
Definition CalculateStatistics (o : obj) : outcome obj :=
  if o_scalc o then Ok o
  else
    let '(s, s2) := (match o_stats o, o_stats2 o with
                     | [], _ | _, [] => InitialStatsMap (o_stats o) (o_stats2 o)
                     | s, s2 => (s, s2) end) in
    let r := o_r o in
    if r_is2d r && negb (isnull (r_data2d r)) then
      let* vs := basic2 (elems (r_data2d r)) (r_ncells r) (r_nlyrs r) (r_nodata r) in
      let* s2' := put_derived s2 (map Some vs) in
      Ok (set_stats o s s2' true)
    else
      let* vs := basic1 (elems (r_data r)) (r_ncells r) (r_nodata r) in
      let* s' := put_derived s vs in
      Ok (set_stats o s' s2 true).

(** data_raster.hpp:2468-2475 ReleaseStatsMap2D. *)
Definition ReleaseStatsMap2D (o : obj) : obj := set_stats o (o_stats o) [] (o_scalc o).

(** data_raster.hpp:2477-2482 UpdateStatistics. *)
Definition UpdateStatistics (o : obj) : outcome obj :=
  let o1 := if r_is2d (o_r o) && o_scalc o then ReleaseStatsMap2D o else o in
  CalculateStatistics (set_stats o1 (o_stats o1) (o_stats2 o1) false).

(** data_raster.hpp:2484-2513 GetStatistics(sindex, lyr): object afterwards and result. *)
Definition GetStatistics (o : obj) (name : bytes) (lyr : Z) : outcome (obj * D) :=
  let s := GetUpper name in
  let r := o_r o in
  if negb (ValidateRasterData r) || negb (ValidateLayer r lyr) then Ok (o, o_default o)
  else if r_is2d r && negb (isnull (r_data2d r)) then
    match lookup (o_stats2 o) s with
    | None => Ok (o, o_default o)
    | Some p =>
        let* o' := (if isnull p then CalculateStatistics (set_stats o (o_stats o) (o_stats2 o) false) else Ok o) in
        let* a := at_get (o_stats2 o') s in
        let* l := deref a in
        let* v := aget l (lyr - 1) in
        Ok (o', v)
    end
  else
    match lookup (o_stats o) s with
    | None => Ok (o, o_default o)
    | Some x =>
        let* o' := (if feqD x dNODATA || negb (o_scalc o) then CalculateStatistics o else Ok o) in
        let* v := at_get (o_stats o') s in
        Ok (o', v)
    end.

(** data_raster.hpp:2515-2539 GetStatistics(sindex, lyrnum, values): object
    afterwards, the layer number if it is written, and [*values]. *)
Definition GetStatisticsArray (o : obj) (name : bytes) : outcome (obj * option Z * option (list D)) :=
  let r := o_r o in
  if negb (r_is2d r) || negb (isnull (r_data2d r)) then Ok (o, None, None)
  else
    let s := GetUpper name in
    match lookup (o_stats2 o) s with
    | None => Ok (o, Some (r_nlyrs r), None)
    | Some p =>
        let* o' := (if isnull p || negb (o_scalc o) then CalculateStatistics o else Ok o) in
        let* v := at_get (o_stats2 o') s in
        Ok (o', Some (r_nlyrs r), v)
    end.

(** data_raster.hpp:2026-2053 InitializeRasterClass: the object it leaves
    whatever was there before. RDT_Unknown is the enumerator 0
    (data_raster.hpp:118-133); header entries are NODATA_VALUE. *)
Definition InitializeRasterClass (is2d : bool) : obj :=
  mkRobj (mkRaster (-9999) (-9999) (-9999 # 1) (-9999 # 1) (-9999 # 1) tDefault (-9999) (-9999)
            (-1) (-1) tNODATA tDefault is2d None None None None false false false true)
         dNODATA [] InitialStrHeader 0 0 None
         (fst (InitialStatsMap [] [])) (snd (InitialStatsMap [] [])) false [].

(** data_raster.hpp:2055-2072 InitializeReadFunction. *)
Definition InitializeReadFunction (o : obj) (path : bytes) (calc : bool) (mask : option nat) (maskext : bool)
    (default : D) (defaultT : T) (opts : smap bytes) : obj :=
  let o := if r_init (o_r o) then o else InitializeRasterClass false in
  let r := o_r o in
  mkRobj
    (mkRaster (r_rows r) (r_cols r) (r_xll r) (r_yll r) (r_cs r) (r_hnodata r) (r_hcells r) (r_hlyrs r)
       (r_ncells r) (r_nlyrs r) (r_nodata r) defaultT (r_is2d r) (r_data r) (r_data2d r)
       (r_pos r) (r_posidx r) calc (r_store r) (if isnull mask then false else maskext) (r_init r))
    default path (CopyMap opts (o_opts o)) (o_type o) (type_in_options opts) mask
    (o_stats o) (o_stats2 o) (o_scalc o) (o_subset o).

(** utils_array.h:357-378 Initialize1DArray(row, data, init_data). [junk n] is
    what a new array of [n] elements happens to contain. *)
Definition copy1d {A} (junk : nat -> list A) (p : option (list A)) (n : Z) (init : option (list A))
  : outcome (option (list A)) :=
  match p with
  | Some _ => Ok p
  | None =>
      if n <? 0 then Ok None
      else match init with
           | None => Ok (Some (junk (Z.to_nat n)))
           | Some l => if n <=? Z.of_nat (length l) then Ok (Some (firstn (Z.to_nat n) l)) else UB
           end
  end.

(** utils_array.h:413-425 Initialize2DArray(row, col, data, init_data). The
    first element of the source is read before anything else, also when the
    destination is not null. A destination that is not null is left alone. *)
Definition copy2d {A} (p : option (list (list A))) (n k : Z) (init : option (list (list A)))
  : outcome (option (list (list A))) :=
  let* d := deref init in
  let* c := aget d 0 in
  let* _ := aget c 0 in
  match p with
  | Some _ => Ok p
  | None =>
      if (n <? 0) || (n * k <? 0) then Ok None
      else
        let* rows := ofold (fun acc i =>
            let* c := aget d i in
            let* row := ofold (fun row j => let* v := aget c j in Ok (row ++ [v])) (zseq k) [] in
            Ok (acc ++ [row])) (zseq n) [] in
        Ok (Some rows)
  end.

(** The positions array is an n x 2 array; a pair is a row of it.
    utils_array.h:413-425, called at data_raster.cpp:239-268. *)
Definition copy_pos (p : option (list (Z * Z))) (n : Z) (init : option (list (Z * Z)))
  : outcome (option (list (Z * Z))) :=
  let* d := deref init in
  let* _ := aget d 0 in
  match p with
  | Some _ => Ok p
  | None => if n <? 0 then Ok None
            else if n <=? Z.of_nat (length d) then Ok (Some (firstn (Z.to_nat n) d)) else UB
  end.

(** What new memory contains, for the element types used.
    utils_array.h:363, when the source is null. *)
Variable junkT : nat -> list T.
(** utils_array.h:363, when the source is null. *)
Variable junkZ : nat -> list Z.
(** utils_array.h:363, when the source is null. *)
Variable junkD : nat -> list D.

(** data_raster.cpp:239-268 SubsetPositions(src, true). *)
Definition DeepSubset (s : @subset D) : outcome (@subset D) :=
  let* g := copy1d junkZ None (s_n s) (s_global s) in
  let* lp := copy_pos None (s_n s) (s_lpos s) in
  let* li := copy1d junkZ None (s_n s) (s_lidx s) in
  let* d := (match s_data s with None => Ok None | Some _ => copy1d junkD None (s_n s) (s_data s) end) in
  let* d2 := (match s_data2 s with None => Ok None | Some _ => copy2d None (s_n s) (s_lyrs s) (s_data2 s) end) in
  Ok (mkSub (s_usable s) (s_n s) (s_lyrs s) (s_srow s) (s_erow s) (s_scol s) (s_ecol s) true lp li g d d2).

(** data_raster.hpp:3649-3667, releasing what the target holds. *)
Definition CopyRelease (o : obj) : outcome obj :=
  let r := o_r o in
  let* d2 := (if r_is2d r && negb (isnull (r_data2d r)) && (0 <? r_ncells r)
              then let* _ := release2d (r_data2d r) in Ok None else Ok (r_data2d r)) in
  let d := if negb (r_is2d r) then None else r_data r in
  let* _ := release2d (r_pos r) in
  let r1 := set_pos (set_cells r d d2) None None (r_calc r) (r_store r) in
  let o1 := set_r o r1 in
  let o2 := if o_scalc o1 then set_stats o1 (o_stats o1) [] false else o1 in
  Ok (set_subset o2 []).

(** data_raster.hpp:3689-3704, the statistics. *)
Definition CopyStats (src o : obj) : outcome obj :=
  if o_scalc src then
    if r_is2d (o_r o) then
      let* s2 := ofold (fun m kp =>
          let* a := copy1d junkD None (r_nlyrs (o_r o)) (snd kp) in at_set m (fst kp) a)
        (o_stats2 src) (o_stats2 o) in
      Ok (set_stats o (o_stats o) s2 true)
    else
      Ok (set_stats o (fold_left (fun m kv => UpdateMap m (fst kv) (snd kv)) (o_stats src) (o_stats o))
            (o_stats2 o) true)
  else Ok (set_stats o (o_stats o) (o_stats2 o) false).

(** data_raster.hpp:3669-3716, filling the target from [src]. *)
Definition CopyFill (src o : obj) : outcome obj :=
  let rs := o_r src in
  let o1 := InitializeReadFunction o (o_path src) (r_calc rs) (o_mask src) (r_maskext rs)
              (o_default src) (r_default rs) (o_opts src) in
  let r := o_r o1 in
  let* dd := (if r_is2d rs
              then let* d2 := copy2d (r_data2d r) (r_ncells rs) (r_nlyrs rs) (r_data2d rs) in Ok (r_data r, d2)
              else let* d := copy1d junkT (r_data r) (r_ncells rs) (r_data rs) in Ok (d, r_data2d r)) in
  let* pp := (if r_calc rs
              then let* p := copy_pos (r_pos r) (r_ncells rs) (r_pos rs) in
                   let* ix := copy1d junkZ (r_posidx r) (r_ncells rs) (r_posidx rs) in Ok (p, ix)
              else Ok (r_pos r, r_posidx r)) in
  let r' := mkRaster (r_rows rs) (r_cols rs) (r_xll rs) (r_yll rs) (r_cs rs) (r_hnodata rs) (r_hcells rs)
              (r_hlyrs rs) (r_ncells rs) (r_nlyrs rs) (r_nodata rs) (r_default r)
              (if r_is2d rs then true else r_is2d r) (fst dd) (snd dd) (fst pp) (snd pp)
              (r_calc r) (if r_calc rs then true else r_store r) (r_maskext r) (r_init r) in
  let o2 := mkRobj r' (o_default o1) (o_path o1) (o_opts o1) (o_type src) (o_outtype src) (o_mask o1)
              (o_stats o1) (o_stats2 o1) (o_scalc o1) (o_subset o1) in
  let* o3 := CopyStats src o2 in
  let* m := ofold (fun m ks => let* s := DeepSubset (snd ks) in Ok (zput m (fst ks) s)) (o_subset src) [] in
  Ok (set_subset o3 m).

(** data_raster.hpp:3646-3717 Copy, source and target distinct objects. *)
Definition Copy (o src : obj) : outcome obj :=
  let* o1 := CopyRelease o in CopyFill src o1.

(** data_raster.hpp:3646-3717, the call [o.Copy(&o)]: what is read while filling
    is what the releases left. *)
Definition CopySelf (o : obj) : outcome obj :=
  let* o1 := CopyRelease o in CopyFill o1 o1.

(** data_raster.hpp:3640-3644, the copy constructor. *)
Definition CopyCtor (src : obj) : outcome obj := Copy (InitializeRasterClass false) src.

(** Constructors from a mask and values. [castM] converts the mask's NoData
    value, [castD] is the mask's default value as a double. *)
Section FromMask.
Context {M : Type}.
(** Conversions of data_raster.hpp:2209-2254. *)
Variable feqM : M -> M -> bool.
(** Conversions of data_raster.hpp:2209-2254. *)
Variable castM : M -> T.
(** Conversions of data_raster.hpp:2209-2254. *)
Variable castD : T -> D.
(** Conversions of data_raster.hpp:2209-2254. *)
Variable mdefault : M -> T.

(** data_raster.hpp:2209-2231. Result: the mask afterwards (its positions may
    have been calculated) and the new raster; [SRS] text and the options are
    left out. *)
Definition FromMask1D (ord1 ord2 : list nat) (mask : raster M) (values : option (list T)) (len : Z)
  : outcome (raster M * raster T) :=
  let* a := GetRasterPositionData feqM ord1 mask in
  let* b := GetRasterPositionIndex feqM ord2 (fst a) in
  let '(mask', (n, ix)) := b in
  let p := snd (snd a) in
  let r0 := o_r (InitializeRasterClass false) in
  if negb (n =? len) then
    Ok (mask', mkRaster (r_rows r0) (r_cols r0) (r_xll r0) (r_yll r0) (r_cs r0) (r_hnodata r0) (r_hcells r0)
                 (r_hlyrs r0) n 1 (r_nodata r0) (r_default r0) false None None p ix false false true false)
  else
    let* d := copy1d junkT None n values in
    Ok (mask', mkRaster (r_rows mask') (r_cols mask') (r_xll mask') (r_yll mask') (r_cs mask')
                 (castM (r_hnodata mask')) (r_hcells mask') (r_hlyrs mask') n 1 (castM (r_nodata mask'))
                 (mdefault (r_default mask')) false d None p ix false false true true).

(** data_raster.hpp:2233-2254. *)
Definition FromMask2D (ord1 ord2 : list nat) (mask : raster M) (values : option (list (list T))) (len lyrs : Z)
  : outcome (raster M * raster T) :=
  let* a := GetRasterPositionData feqM ord1 mask in
  let* b := GetRasterPositionIndex feqM ord2 (fst a) in
  let '(mask', (n, ix)) := b in
  let p := snd (snd a) in
  let r0 := o_r (InitializeRasterClass true) in
  if negb (n =? len) then
    Ok (mask', mkRaster (r_rows r0) (r_cols r0) (r_xll r0) (r_yll r0) (r_cs r0) (r_hnodata r0) (r_hcells r0)
                 (r_hlyrs r0) n lyrs (r_nodata r0) (r_default r0) true None None p ix false false true false)
  else
    let* d := copy2d None n lyrs values in
    Ok (mask', mkRaster (r_rows mask') (r_cols mask') (r_xll mask') (r_yll mask') (r_cs mask')
                 (castM (r_hnodata mask')) (r_hcells mask') lyrs n lyrs (castM (r_nodata mask'))
                 (r_default r0) true None d p ix false false true true).
End FromMask.
End Obj.
