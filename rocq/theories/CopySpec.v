(** Vocabulary for the properties of copies, statistics and rasters built from
    a mask and values. *)
From Coq Require Import ZArith QArith List Bool String Sorted.
From Verif Require Import Base StrModel MapModel RasterModel RasterSpec SubsetModel MathModel MathSpec CopyModel.
Import List ListNotations.
Open Scope Z_scope.
Open Scope outcome_scope.

Section Spec.
Context {T D : Type}.

(** A raster with at least one cell: all cells of the grid, or the valid ones
    with their positions. *)
Definition holding (r : raster T) : Prop :=
  (full_grid r /\ r_calc r = false) \/ exists ix, compact r ix.

(** The six names are the keys of the map. *)
Definition named {V} (m : smap V) : Prop :=
  NoDup (map fst m) /\ forall k, In k (map fst m) <-> In k stats_names.

(** The statistics members are in one of the two states reached by querying a
    newly built object. *)
Definition stats_ok (o : robj T D) : Prop :=
  named (o_stats o) /\
  (r_is2d (o_r o) = true ->
     named (o_stats2 o) /\
     forall k p, In (k, p) (o_stats2 o) ->
       if o_scalc o then exists l, p = Some l /\ Z.of_nat (length l) = r_nlyrs (o_r o) else p = None).

(** A subset holding its cells. *)
Definition subset_full (s : @subset D) : Prop :=
  let n := Z.to_nat (s_n s) in
  0 < s_n s /\
  (exists g, s_global s = Some g /\ length g = n) /\
  (exists p, s_lpos s = Some p /\ length p = n) /\
  (exists i, s_lidx s = Some i /\ length i = n) /\
  (forall d, s_data s = Some d -> length d = n) /\
  (forall d, s_data2 s = Some d -> 0 < s_lyrs s /\ length d = n /\ Forall (fun c => length c = Z.to_nat (s_lyrs s)) d).

(** A valid source: cells, statistics and subsets in order. *)
Definition sound (o : robj T D) : Prop :=
  holding (o_r o) /\ stats_ok o /\
  Forall (fun ks => subset_full (snd ks)) (o_subset o) /\ NoDup (map fst (o_subset o)) /\
  NoDup (map fst (o_opts o)).

(** Two subsets with the same contents. *)
Definition same_subset (s s' : @subset D) : Prop :=
  s_usable s' = s_usable s /\ s_n s' = s_n s /\ s_lyrs s' = s_lyrs s /\
  s_srow s' = s_srow s /\ s_erow s' = s_erow s /\ s_scol s' = s_scol s /\ s_ecol s' = s_ecol s /\
  s_lpos s' = s_lpos s /\ s_lidx s' = s_lidx s /\ s_global s' = s_global s /\
  s_data s' = s_data s /\ s_data2 s' = s_data2 s.

(** Every query on cells, positions and the header has the same answer. *)
Definition same_cells (r r' : raster T) : Prop :=
  (forall row col lyr, GetValue r' row col lyr = GetValue r row col lyr) /\
  (forall row col, GetPosition r' row col = GetPosition r row col) /\
  (forall i lyr, GetValueByIndex r' i lyr = GetValueByIndex r i lyr) /\
  GetRasterData r' = GetRasterData r /\ Get2DRasterData r' = Get2DRasterData r /\
  r_pos r' = r_pos r /\ r_posidx r' = r_posidx r /\ r_calc r' = r_calc r /\ r_is2d r' = r_is2d r /\
  r_rows r' = r_rows r /\ r_cols r' = r_cols r /\ r_xll r' = r_xll r /\ r_yll r' = r_yll r /\ r_cs r' = r_cs r /\
  r_hnodata r' = r_hnodata r /\ r_hcells r' = r_hcells r /\ r_hlyrs r' = r_hlyrs r /\
  r_ncells r' = r_ncells r /\ r_nlyrs r' = r_nlyrs r /\ r_nodata r' = r_nodata r /\ r_default r' = r_default r.

(** [t] may receive a copy of [src]: a single-layer object takes anything, a
    multi-layer object only multi-layer rasters; and layers are only taken while
    no statistics were asked of [t]. *)
Definition can_receive (t src : robj T D) : Prop :=
  r_init (o_r t) = true /\ NoDup (map fst (o_opts t)) /\ named (o_stats t) /\ r_pos (o_r t) <> Some [] /\
  if r_is2d (o_r src)
  then (r_data2d (o_r t) = None \/ r_is2d (o_r t) = true /\ 0 < r_ncells (o_r t) /\ r_data2d (o_r t) <> Some []) /\
       o_scalc t = false /\ named (o_stats2 t) /\ forall k p, In (k, p) (o_stats2 t) -> p = None
  else r_is2d (o_r t) = false.

(** [o] reads like [src]: cells, positions, header, data types, options,
    statistics (whatever way they are computed), subsets. *)
Definition reads_like (feqD : D -> D -> bool) (dNODATA : D) (src o : robj T D) : Prop :=
  same_cells (o_r src) (o_r o) /\
  o_default o = o_default src /\ o_path o = o_path src /\ o_type o = o_type src /\ o_outtype o = o_outtype src /\
  o_mask o = o_mask src /\
  (forall k v, lookup (o_opts src) k = Some v -> lookup (o_opts o) k = Some v) /\
  (forall basic1 basic2 name lyr s v,
     GetStatistics feqD dNODATA basic1 basic2 src name lyr = Ok (s, v) ->
     exists s', GetStatistics feqD dNODATA basic1 basic2 o name lyr = Ok (s', v)) /\
  (forall k, match zfind (o_subset src) k with
             | Some s => exists s', zfind (o_subset o) k = Some s' /\ same_subset s s'
             | None => zfind (o_subset o) k = None end).
End Spec.

(** The figure called [name] in six numbers. *)
Definition figure (st : stats) (name : bytes) : option (option Q) :=
  if beqb name (str "VALID_CELLNUMBER") then Some (Some (inject_Z (s_num st)))
  else if beqb name (str "MEAN") then Some (s_mean st)
  else if beqb name (str "MAX") then Some (Some (s_max st))
  else if beqb name (str "MIN") then Some (Some (s_min st))
  else if beqb name (str "STD") then Some (s_std st)
  else if beqb name (str "RANGE") then Some (Some (s_range st))
  else None.

(** A double is a rational or NaN ([None]); the six numbers as the code lays
    them out. [t]: how the parallel loops run. *)
Section Basic.
Variable feq : Q -> Q -> bool.
Variable sqrt : Q -> Q.
Definition six (st : stats) : list (option Q) :=
  [Some (inject_Z (s_num st)); s_mean st; Some (s_max st); Some (s_min st); s_std st; Some (s_range st)].
Definition basic1Q (t : team) (d : list Q) (n : Z) (nd : Q) : outcome (list (option Q)) :=
  let* st := BasicStatistics feq sqrt d n nd t in Ok (six st).
Definition basic2Q (t : Z -> team) (d : list (list Q)) (n lyrs : Z) (nd : Q) : outcome (list (list (option Q))) :=
  let* sts := BasicStatistics2D feq sqrt d n lyrs nd t in
  Ok [map (fun st => Some (inject_Z (s_num st))) sts; map s_mean sts; map (fun st => Some (s_max st)) sts;
      map (fun st => Some (s_min st)) sts; map s_std sts; map (fun st => Some (s_range st)) sts].
End Basic.

(** The values of layer [lyr], cell by cell. *)
Definition layer_values {T} (r : raster T) (lyr : Z) (vals : list T) : Prop :=
  Forall2 (fun i v => GetValueByIndex r i lyr = Ok v) (zseq (r_ncells r)) vals.

(** [st] describes the values [vals] of which those equal to [nd] do not count. *)
Definition describes (feq : Q -> Q -> bool) (sqrt : Q -> Q) (nd : Q) (vals : list Q) (st : stats) : Prop :=
  (valid feq nd vals <> [] -> Forall in_float_range (valid feq nd vals) -> stats_of sqrt (valid feq nd vals) st) /\
  (valid feq nd vals = [] -> st = mkStats 0 None (- FLT_MAX) FLT_MAX None (- FLT_MAX - FLT_MAX)%Q).

(** The cells are there and each parallel loop carries out every iteration once. *)
Definition ready (t1 : team) (t2 : Z -> team) (o : robj Q (option Q)) : Prop :=
  storage (o_r o) (r_ncells (o_r o)) /\ 0 <= r_ncells (o_r o) /\ 1 <= r_nlyrs (o_r o) /\
  covers t1 (Z.to_nat (r_ncells (o_r o))) /\
  (forall j, 0 <= j < r_nlyrs (o_r o) -> covers (t2 j) (Z.to_nat (r_ncells (o_r o)))).

(** SetValue and ReplaceNoData, as opposed to collecting the positions. *)
Definition is_update {T} (o : rop T) : bool := match o with OCalc => false | _ => true end.

(** The new raster has the frame and NoData value of the mask. *)
Definition same_header {A B} (castM : A -> B) (mask : raster A) (r : raster B) : Prop :=
  r_rows r = r_rows mask /\ r_cols r = r_cols mask /\ r_xll r = r_xll mask /\ r_yll r = r_yll mask /\ r_cs r = r_cs mask /\
  r_nodata r = castM (r_nodata mask).

(** [ix]: the numbers of the valid cells of a mask, collected before or not yet. *)
Definition valid_cells {M} (feqM : M -> M -> bool) (mask : raster M) (ix : list Z) : Prop :=
  compact mask ix \/
  (full_grid mask /\ ix <> [] /\ StronglySorted Z.lt ix /\ Forall (fun k => 0 <= k < r_rows mask * r_cols mask) ix /\
   forall row col, inside mask row col ->
     (In (row * r_cols mask + col) ix <-> exists x, GetValue mask row col 1 = Ok x /\ feqM x (r_nodata mask) = false)).

