(** C151: reading from GridFS with a mask that has subsets. *)
From Coq Require Import ZArith QArith Reals Ascii String List Bool Lia Sorted.
From Flocq Require Import Core BinarySingleNaN.
From Verif Require Import Base ListLib StrModel MapModel BasicModel RasterModel RasterSpec RasterProofs CoordModel FloatModel CoordFloatModel TypeModel MongoModel CopyModel NumModel AscModel CellModel GdalModel MaskModel SubsetModel SubsetSpec MaskSubModel MaskSubSpec MaskSubProofs3 MaskSubProofs4 MaskProps MaskSubProps AscSpec CellSpec GdalProps GdalProps2 GridfsModel GridfsSpec GridfsProps GridfsProps2 GridfsProps3 GridfsProps4 GridMaskModel GridMaskSpec GridMaskProofs GridMaskProofs2.
Import ListNotations.
Open Scope Z_scope.

(** ** C151. Whatever the store holds: a file with as many cells as the mask has valid ones
    is given all subsets of the mask, also those that lie on NoData, with the number of
    layers of the file. *)
Theorem C151_all : forall (M D : Type) pick feq s ord st name v dflt nv asked (m : raster M) (msubs : list (Z * subset D)) masked cells ok h o r c,
  view_of v m -> mask_subsets m msubs cells ->
  ReadFromMongoDB pick feq s ord st name true (Some v) true dflt nv asked = Ok (ok, h, o, Some r) ->
  lookup h (str "CELLSNUM") = Some c -> f_int c = Ok (r_ncells m) ->
  ReadWithSubsets pick feq s ord st name true v msubs masked true dflt nv asked =
    Ok (true, h, o, Some r, map (fun ks => (fst ks, relayered (r_nlyrs r) (snd ks))) msubs).
Proof. intros M D pick feq s ord st name v dflt nv asked m msubs masked cells ok h o r c VW MS R L F. exact (read_subsets pick feq s ord st name true true v dflt nv asked M m msubs masked cells VW MS ok h o r c eq_refl eq_refl R L F). Qed.
Print Assumptions C151_all.

(** A raster written without its NoData cells and read with a mask of the same grid and
    number of cells: the subsets stand for the same cells of the raster read; the value of
    valid cell number [q] of the mask is that of cell number [q] of the raster written. *)
Theorem C151_round_trip : forall (M D : Type) pick feq s ord ord' saved st h own opts r ix core filename x y cs nd asked v (m : raster M) ix' (msubs : list (Z * subset D)) masked cells dflt nv,
  finds pick -> s <> RDT_Unknown -> compact r ix -> r_hcells r = r_ncells r -> grid_size (r_rows r) (r_cols r) -> r_nlyrs r * r_ncells r <= INT_MAX ->
  object_header h r x y cs nd -> object_options own -> object_options opts -> stores_own_type s own opts ->
  cells_of_type s r -> cvt s (VD nd) = Ok (r_nodata r) -> saves saved ->
  let name := match filename with [] => core | _ => filename end in unused st name -> asks_valid own opts asked ->
  compact m ix' -> r_rows m = r_rows r -> r_cols m = r_cols r -> length ix' = length ix -> view_of v m -> mask_subsets m msubs cells ->
  exists f own' h' o' r',
    OutputToMongoDB feq s ord saved st h own r core filename opts false = Ok (true, st ++ [f], r, own') /\
    ReadWithSubsets pick feq s ord' (st ++ [f]) name true v msubs masked true dflt nv asked =
      Ok (true, h', o', Some r', map (fun ks => (fst ks, relayered (r_nlyrs r) (snd ks))) msubs) /\
    (forall k z, In (k, z) msubs -> MaskSubSpec.describes r' (relayered (r_nlyrs r) z) (cells k)) /\
    forall q c c' lyr, nth_error ix q = Some c -> nth_error ix' q = Some c' -> 1 <= lyr <= r_nlyrs r ->
      GetValue r' (c' / r_cols r) (c' mod r_cols r) lyr = GetValue r (c / r_cols r) (c mod r_cols r) lyr.
Proof.
  intros M D pick feq s ord ord' saved st h own opts r ix core filename x y cs nd asked v m ix' msubs masked cells dflt nv
    FP U C HC G SZ OH OO OP SO CT CV SV name UN AV CM ER EC LI VW MS.
  pose proof CM as (_ & _ & _ & _ & NC & _ & _ & PI & PP & SS & FI). pose proof VW as (V1 & V2 & V3 & V4).
  destruct (C84_by_rank pick feq s ord ord' saved st h own opts r ix core filename x y cs nd asked (mkMask (mk_valid v) (mk_count v) (mk_pos v) (mk_idx v) (fun _ => UB)) ix' dflt nv)
    as (f & own' & h' & o' & r' & W & FN & R & CR & E1 & E2 & E3 & E4 & VA); auto.
  - unfold places. cbn [mk_valid mk_count mk_pos mk_idx]. rewrite V1, V2, V3, V4, NC, PI, PP, EC. auto.
  - rewrite <- ER, <- EC. exact FI.
  - exists f, own', h', o', r'. split; [exact W|].
    destruct (read_apply _ _ _ _ _ _ _ _ _ _ _ _ _ _ R) as (c & L & F & R'). rewrite V1 in F.
    split; [rewrite <- E3; exact (C151_all M D pick feq s ord' (st ++ [f]) name v dflt nv asked m msubs masked cells true h' o' r' c VW MS R' L F)|].
    split; [|exact VA]. intros k z I. destruct MS as [_ H]. destruct (H k z I) as [DS _]. apply (describes_same m r' ix'); auto; congruence.
Qed.
Print Assumptions C151_round_trip.

(** Otherwise (no positions, own extent, or another number of cells) reading a raster
    written with its NoData cells is masking the complete grid: its cells and its subsets are
    what masking makes of them (C33-C37, C123-C127). *)
Theorem C151_masked : forall (D : Type) pick feq s ord ord' saved st h own opts r core filename x y cs nd asked v (msubs : list (Z * subset D)) masked calc ext dflt nv,
  finds pick -> s <> RDT_Unknown -> holds_data r -> grid_size (r_rows r) (r_cols r) -> r_nlyrs r * (r_rows r * r_cols r) <= INT_MAX ->
  object_header h r x y cs nd -> object_options own -> object_options opts -> stores_own_type s own opts ->
  cells_of_type s r -> cvt s (VD nd) = Ok (r_nodata r) -> saves saved ->
  let name := match filename with [] => core | _ => filename end in unused st name -> NoDup (map fst asked) ->
  (forall k w, In (k, w) asked -> k <> str "INCLUDE_NODATA" /\ k <> str "DATATYPE_OUT" /\ effective own opts k = Some w) ->
  calc = false \/ ext = false \/ mk_valid v <> r_rows r * r_cols r ->
  exists f own' h' o' r0,
    OutputToMongoDB feq s ord saved st h own r core filename opts true = Ok (true, st ++ [f], r, own') /\
    full_grid r0 /\ same_grid r r0 /\ r_xll r0 = q_of x /\ r_yll r0 = q_of y /\ r_cs r0 = q_of cs /\ r_calc r0 = calc /\ r_maskext r0 = ext /\
    r_default r0 = (if feq dflt nv && negb (feq (r_nodata r) nv) then r_nodata r else dflt) /\
    ReadFromMongoDB pick feq s ord' (st ++ [f]) name calc (Some v) ext dflt nv asked =
      obind (mk_apply v r0) (fun m => Ok (0 <=? snd m, h', o', Some (fst m))) /\
    ReadWithSubsets pick feq s ord' (st ++ [f]) name calc v msubs masked ext dflt nv asked =
      obind (mk_apply v r0) (fun m => obind (masked r0) (fun subs => Ok (0 <=? snd m, h', o', Some (fst m), subs))).
Proof.
  intros D pick feq s ord ord' saved st h own opts r core filename x y cs nd asked v msubs masked calc ext dflt nv FP U HD G SZ OH OO OP SO CT CV SV name UN NA AG NT.
  destruct (C83_round_trip pick feq s ord ord' saved st h own opts r core filename x y cs nd asked ext dflt nv FP U HD G SZ OH OO OP SO CT CV SV UN NA AG)
    as (f & own' & h' & o' & r' & W & _ & R & FG & SG & X & Y & CS & DF & _). pose proof SG as (E1 & E2 & E3 & E4 & SV'). fold name in R.
  assert (NT' : calc = false \/ ext = false \/ mk_valid v <> r_rows r' * r_cols r') by (rewrite E1, E2; exact NT).
  exists f, own', h', o', (flagged calc ext r'). split; [exact W|]. split; [exact FG|]. split.
  - split; [exact E1|]. split; [exact E2|]. split; [exact E3|]. split; [exact E4|]. intros i j l I J L. rewrite flagged_value by apply FG. apply SV'; assumption.
  - do 5 (split; [assumption || reflexivity|]). split; [exact DF|]. split.
    + apply (read_masking pick feq s ord' (st ++ [f]) name dflt nv asked ext h' o' r' R calc ext v NT').
    + exact (read_masking_subs pick feq s ord' (st ++ [f]) name dflt nv asked ext h' o' r' msubs masked R calc ext v NT').
Qed.
Print Assumptions C151_masked.

(** Expected: the subsets an object has after reading stand for cells of it. This is false
    when the file has another number of columns than the mask, and as many cells as the mask
    has valid ones: reading succeeds, and no subset with a cell below the first row stands
    for any cells of the raster. *)
Theorem C151_columns_refuted : forall (M D : Type) pick feq s ord st name v dflt nv asked (m : raster M) ix (msubs : list (Z * subset D)) masked cells ok h o r c k z rc,
  compact m ix -> view_of v m -> mask_subsets m msubs cells ->
  ReadFromMongoDB pick feq s ord st name true (Some v) true dflt nv asked = Ok (ok, h, o, Some r) ->
  lookup h (str "CELLSNUM") = Some c -> f_int c = Ok (r_ncells m) -> r_cols r <> r_cols m ->
  In (k, z) msubs -> In rc (cells k) -> 0 < fst rc ->
  exists subs, ReadWithSubsets pick feq s ord st name true v msubs masked true dflt nv asked = Ok (true, h, o, Some r, subs) /\
    In (k, relayered (r_nlyrs r) z) subs /\ forall cs, ~ MaskSubSpec.describes r (relayered (r_nlyrs r) z) cs.
Proof.
  intros M D pick feq s ord st name v dflt nv asked m ix msubs masked cells ok h o r c k z rc CM VW MS R L F NE I J P.
  eexists. split; [exact (C151_all M D pick feq s ord st name v dflt nv asked m msubs masked cells ok h o r c VW MS R L F)|]. split.
  - apply (in_map (fun ks => (fst ks, relayered (r_nlyrs r) (snd ks))) _ _ I).
  - intros cs. exact (read_elsewhere pick feq s ord st name true true v dflt nv asked M m ix msubs cells CM VW MS ok h o r c k z rc eq_refl eq_refl R L F NE I J P _ cs).
Qed.
Print Assumptions C151_columns_refuted.

(** The raster of C84_case (two by two, without cell 1), read with a mask of that grid with
    two subsets, of values 4 and 6. *)
Definition m22 : raster Z :=
  let z := FromArray (Some [4; nd; 6; 4]) 2 2 nd nd 10 0 3 in
  match SetCalcPositions Z.eqb [0; 1; 2]%nat z with Ok (r, _) => r | _ => z end.
Definition cells22 (k : Z) : list (Z * Z) := if k =? 4 then [(0, 0); (1, 1)] else [(1, 0)].
Definition view {M} (m : raster M) : mask_view := mkMask (r_ncells m) (r_ncells m) (r_pos m) (r_posidx m) (fun r => Ok (r, 0)).
Lemma m22_compact : compact m22 [0; 2; 3]. Proof. compactz. Qed.
Lemma m22_subsets : mask_subsets m22 (zsubs m22) cells22. Proof. subsetsz m22_compact. Qed.
Example C151_ex : map fst (zsubs m22) = [4; 6] /\ exists f own' h' o' r',
  OutputToMongoDB num_eq RDT_Int32 [] third_time [g_old] o_header o_own tif_dropped (str "slope") [] o_call false = Ok (true, [g_old; f], tif_dropped, own') /\
  ReadWithSubsets (@hd_error gfile) num_eq RDT_Int32 [] [g_old; f] (str "slope") true (view m22) (zsubs m22) (fun _ => UB) true (VI 0) (VI (-9999)) asked_valid =
    Ok (true, h', o', Some r', map (fun ks => (fst ks, relayered 1 (snd ks))) (zsubs m22)) /\
  (forall k z, In (k, z) (zsubs m22) -> MaskSubSpec.describes r' (relayered 1 z) (cells22 k)).
Proof.
  split; [vm_compute; reflexivity|]. destruct o_options as (O1 & O2 & _).
  destruct (C151_round_trip Z Z (@hd_error gfile) num_eq RDT_Int32 [] [] third_time [g_old] o_header o_own o_call tif_dropped [0; 2; 3] (str "slope") []
    (fdiv (of_int 1) (of_int 2)) (of_int 3) (of_int 10) (of_int (-9)) asked_valid (view m22) m22 [0; 2; 3] (zsubs m22) (fun _ => UB) cells22 (VI 0) (VI (-9999)))
    as (f & own' & h' & o' & r' & W & R & DS & _); auto.
  - exact g_finds.
  - discriminate.
  - exact tif_compact.
  - apply tif_grid.
  - vm_compute. discriminate.
  - exact o_fields.
  - exact o_type.
  - exact tif_cells.
  - exact g_saves.
  - intros f [<-|[]]. discriminate.
  - exact o_asks.
  - exact m22_compact.
  - repeat split.
  - exact m22_subsets.
  - exists f, own', h', o', r'. auto.
Qed.

(** The same file read with the mask of C126, three by three with three cells: it has a
    subset with cells (1,1) and (2,0). *)
Example C151_columns_ex : exists h o r subs z,
  ReadWithSubsets (@hd_error gfile) num_eq RDT_Int32 [] valid_file (str "slope") true (view me) (zsubs me) (fun _ => UB) true (VI 0) (VI (-9999)) asked_valid = Ok (true, h, o, Some r, subs) /\
  In (7, z) subs /\ forall cs, ~ MaskSubSpec.describes r z cs.
Proof.
  assert (P : match ReadFromMongoDB (@hd_error gfile) num_eq RDT_Int32 [] valid_file (str "slope") true (Some (view me)) true (VI 0) (VI (-9999)) asked_valid with
    | Ok (_, h, _, Some r) => (r_cols r =? 2) && match lookup h (str "CELLSNUM") with Some c => match f_int c with Ok n => n =? 3 | _ => false end | None => false end
    | _ => false end = true) by (vm_compute; reflexivity).
  destruct (ReadFromMongoDB (@hd_error gfile) num_eq RDT_Int32 [] valid_file (str "slope") true (Some (view me)) true (VI 0) (VI (-9999)) asked_valid) as [[[[ok h] o] [r|]]| |] eqn:R; try discriminate P.
  apply andb_prop in P. destruct P as [P1 P]. apply Z.eqb_eq in P1. destruct (lookup h (str "CELLSNUM")) as [c|] eqn:L; [|discriminate P]. destruct (f_int c) as [n| |] eqn:F; try discriminate P. apply Z.eqb_eq in P. subst n.
  assert (I : exists z, In (7, z) (zsubs me)) by (eexists; vm_compute; right; left; reflexivity). destruct I as (z & I).
  destruct (C151_columns_refuted Z Z (@hd_error gfile) num_eq RDT_Int32 [] valid_file (str "slope") (view me) (VI 0) (VI (-9999)) asked_valid me [4; 6; 8] (zsubs me) (fun _ => UB) ecells
    ok h o r c 7 z (1, 1) me_compact) as (subs & E & J & N).
  - repeat split.
  - exact me_subsets.
  - exact R.
  - exact L.
  - exact F.
  - rewrite P1. clear. vm_compute. discriminate.
  - exact I.
  - left. reflexivity.
  - reflexivity.
  - exists h, o, r, subs, (relayered (r_nlyrs r) z). split; [exact E|]. split; [exact J|exact N].
Qed.

(** The raster written with its NoData cell, read with a mask of three cells over the same
    ground: both subsets stay. *)
Definition m22h : raster Z :=
  let z := FromArray (Some [4; nd; 6; 4]) 2 2 nd nd 10 (1#2)%Q 3 in
  match SetCalcPositions Z.eqb [0; 1; 2]%nat z with Ok (r, _) => r | _ => z end.
Definition mask22 (r : raster num) := MaskAndCalcSubs num_eq Z.eqb [] m22h (zsubs m22h) r [].
Definition view22 : mask_view := mkMask (r_ncells m22h) (r_ncells m22h) (r_pos m22h) (r_posidx m22h) (fun r => obind (mask22 r) (fun x => let '(r', _, _, code, _) := x in Ok (r', code))).
Definition whole_file : list gfile :=
  match OutputToMongoDB num_eq RDT_Int32 [] third_time [g_old] o_header o_own tif_dropped (str "slope") [] o_call true with Ok (_, st, _, _) => st | _ => [] end.
Example C151_masked_ex : mk_valid view22 <> r_rows tif_dropped * r_cols tif_dropped /\
  match ReadWithSubsets (@hd_error gfile) num_eq RDT_Int32 [] whole_file (str "slope") true view22 (zsubs m22h) (fun r => obind (mask22 r) (fun x => Ok (snd x))) true (VI 0) (VI (-9999)) o_call with
  | Ok (b, _, _, Some r, subs) => Some (b, r_ncells r, r_data r, map (fun ks => (fst ks, s_global (snd ks))) subs)
  | _ => None
  end = Some (true, 3, Some [VI 5; VI 7; VI 8], [(4, Some [0; 2]); (6, Some [1])]).
Proof. split; [vm_compute; discriminate|vm_compute; reflexivity]. Qed.
