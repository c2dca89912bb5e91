(** Rasters written to GridFS without their NoData cells. *)
From Coq Require Import ZArith QArith Reals Ascii String List Bool Lia Lra Sorted.
From Flocq Require Import Core BinarySingleNaN.
From Verif Require Import Base ListLib StrModel MapModel MapProofs RasterModel RasterSpec RasterProofs BasicModel FloatModel FloatProofs CoordFloatModel TypeModel MongoModel CopyModel NumModel AscModel AscSpec CellModel CellSpec CellProofs CellProofs2 GdalModel GdalProofs3 GdalProps2 GridfsModel GridfsSpec GridfsProofs2 GridfsProofs3 GridfsProofs4 GridfsProofs5 GridfsProofs6 GridfsProofs7 GridfsProofs8 GridfsProps GridfsProps2.
Import ListNotations.
Open Scope Z_scope.

(** C84. The values come back by rank: value number [q] of the file becomes the
    value of valid cell number [q] of the mask, wherever that is. *)
Theorem C84_by_rank pick feq s ord ord' saved st h own opts r ix core filename x y cs nd asked m ix' dflt nv :
  finds pick -> s <> RDT_Unknown -> compact r ix -> r_hcells r = r_ncells r -> grid_size (r_rows r) (r_cols r) -> r_nlyrs r * r_ncells r <= INT_MAX ->
  object_header h r x y cs nd -> object_options own -> object_options opts -> stores_own_type s own opts ->
  cells_of_type s r -> cvt s (VD nd) = Ok (r_nodata r) -> saves saved ->
  let name := match filename with [] => core | _ => filename end in unused st name -> asks_valid own opts asked ->
  places m (r_cols r) ix' -> length ix' = length ix -> StronglySorted Z.lt ix' -> Forall (fun k => 0 <= k < r_rows r * r_cols r) ix' ->
  exists f own' h' o' r',
    OutputToMongoDB feq s ord saved st h own r core filename opts false = Ok (true, st ++ [f], r, own') /\ gf_name f = name /\
    ReadFromMongoDB pick feq s ord' (st ++ [f]) name true (Some m) true dflt nv asked = Ok (true, h', o', Some r') /\
    compact r' ix' /\ r_rows r' = r_rows r /\ r_cols r' = r_cols r /\ r_nlyrs r' = r_nlyrs r /\ r_nodata r' = r_nodata r /\
    forall q c c' lyr, nth_error ix q = Some c -> nth_error ix' q = Some c' -> 1 <= lyr <= r_nlyrs r ->
      GetValue r' (c' / r_cols r) (c' mod r_cols r) lyr = GetValue r (c / r_cols r) (c mod r_cols r) lyr.
Proof.
  intros FP U C HC G SZ OH OO OP SO CT CV SV name UN (NA & AI & AG) PL LI SS FI.
  destruct (valid_sizes r ix C G SZ) as (IR & IC & IL & IE & M1 & M2 & IN). pose proof C as (_ & _ & NL & NC & NI & _).
  destruct (output_valid s feq ord saved st h own opts r core filename x y cs nd ix C G SZ OH HC) as (vs & SM & EO).
  destruct (options_storable s own opts false OO OP) as [OS PLN]. pose proof G as (GR & GC & _).
  assert (LV : Z.of_nat (length vs) = r_ncells r * r_nlyrs r) by (rewrite (proj1 SM); lia).
  assert (FV : Forall (of_type s) vs).
  { apply Forall_forall. intros v I. destruct (In_nth_error _ _ I) as [n E]. assert (n < length vs)%nat by (apply nth_error_Some; congruence).
    set (q := Z.of_nat n / r_nlyrs r). set (k := Z.of_nat n mod r_nlyrs r). assert (QK : Z.of_nat n = r_nlyrs r * q + k) by (apply Z.div_mod; lia).
    assert (K : 0 <= k < r_nlyrs r) by (apply Z.mod_pos_bound; lia). assert (Q : 0 <= q < r_ncells r) by nia.
    destruct (proj2 SM q k Q K) as (v' & E' & RC). rewrite <- QK, Nat2Z.id, E in E'. injection E' as <-.
    destruct (nth_error ix (Z.to_nat q)) as [c|] eqn:EC; [|apply nth_error_None in EC; lia].
    destruct (compact_rank r ix (Z.to_nat q) c (k + 1) C EC ltac:(unfold layer_ok; lia)) as [GV IS]. rewrite Z2Nat.id in GV by lia.
    eapply CT; [exact IS| |rewrite GV; exact RC]. unfold layer_ok. lia. }
  assert (RH : reader_header start) by exact g_reads. pose proof OP as (NO & KO & PO).
  assert (SA : sought asked = CopyMap asked []) by (unfold sought; change (str "INCLUDE_NODATA") with K_INCNODATA in AI; rewrite AI; reflexivity).
  assert (AC : agrees (sought asked) (output_options s own opts false)).
  { assert (NS : NoDup (map fst (sought asked))) by (rewrite SA; apply CopyMap_NoDup; constructor).
    split; [exact NS|]. intros k v I. apply (lookup_In _ _ _ NS) in I. rewrite SA, (CopyMap_lookup asked NA [] k) in I.
    destruct (lookup asked k) as [w|] eqn:E; [|discriminate]. injection I as ->. rewrite (options_lookup s own opts false k NO).
    destruct (beqb K_INCNODATA k) eqn:B; [apply beqb_true in B; subst k; change (str "INCLUDE_NODATA") with K_INCNODATA in AI; congruence|].
    apply lookup_found in E. destruct (AG k v E) as (N2 & EF). { intros ->. vm_compute in B. discriminate. } rewrite EF.
    replace (beqb K_OUTTYPE k) with false; [reflexivity|]. symmetry. apply beqb_false. intros <-. apply N2. reflexivity. }
  destruct (C48_round_trip pick s s s saved st name (file_header h (r_ncells r)) (output_options s own opts false) vs vs vs (r_rows r) (r_cols r) (r_nlyrs r) (r_ncells r) (sought asked) start InitialStrHeader)
    as (f & h' & hs' & W & FN & R & HB & NB & OB & _); auto.
  - apply (file_storable r h x y cs nd); assumption.
  - apply options_target; assumption.
  - left. auto.
  - apply (file_sizes r h x y cs nd); assumption.
  - lia.
  - lia.
  - lia.
  - clear - FV. induction FV; constructor; [apply cvt_own; assumption|assumption].
  - pose proof OH as (NH & _ & _ & H1 & H2 & H3 & H4 & H5 & H6 & H7).
    assert (B : forall k v, k <> K_CELLSNUM -> lookup h k = Some v -> exists y, lookup h' k = Some y /\ same_number v y).
    { intros k v N E. apply HB. rewrite (file_header_lookup h _ _ NH). destruct (beqb K_CELLSNUM k) eqn:Q; [apply beqb_true in Q; congruence|exact E]. }
    assert (BN : exists y, lookup h' K_CELLSNUM = Some y /\ same_number (of_int (r_ncells r)) y) by (apply HB; rewrite (file_header_lookup h _ _ NH), MapProofs.beqb_refl; reflexivity).
    assert (INC : lookup hs' K_INCNODATA = Some (str "FALSE")) by (apply OB; rewrite (options_lookup s own opts false _ NO), MapProofs.beqb_refl; reflexivity).
    assert (ND : lookup h' K_NODATA = Some nd) by (apply NB; rewrite (file_header_lookup h _ _ NH); exact H7).
    destruct (read_masked pick feq s ord' (st ++ [f]) name dflt nv asked m ix' r h' hs' vs x y cs nd (r_ncells r) R INC) as (r' & ER & CR & E1 & E2 & E3 & E4 & ERC); auto;
      try (apply B; [discriminate|assumption]); [lia|].
    exists f, (output_options s own opts false), h', (CopyMap hs' (CopyMap asked InitialStrHeader)), r'.
    split; [rewrite EO; change (name_of core filename) with name; rewrite LV, W; reflexivity|]. split; [exact FN|]. split; [exact ER|]. split; [exact CR|]. repeat (split; [assumption|]).
    intros q c c' lyr EC EC' LY. destruct (compact_rank r ix q c lyr C EC LY) as [GV _]. destruct (compact_rank r' ix' q c' lyr CR EC' ltac:(unfold layer_ok; lia)) as [GV' _].
    rewrite E2 in GV'. rewrite GV, GV'. specialize (ERC (Z.of_nat q) (lyr - 1)). replace (lyr - 1 + 1) with lyr in ERC by lia. apply ERC; [|lia].
    assert (q < length ix)%nat by (apply nth_error_Some; congruence). lia.
Qed.
Print Assumptions C84_by_rank.

(** With the mask the raster was made with, the same grid comes back. *)
Theorem C84_round_trip pick feq s ord ord' saved st h own opts r ix core filename x y cs nd asked m dflt nv :
  finds pick -> s <> RDT_Unknown -> compact r ix -> r_hcells r = r_ncells r -> grid_size (r_rows r) (r_cols r) -> r_nlyrs r * r_ncells r <= INT_MAX ->
  object_header h r x y cs nd -> object_options own -> object_options opts -> stores_own_type s own opts ->
  cells_of_type s r -> cvt s (VD nd) = Ok (r_nodata r) -> saves saved ->
  let name := match filename with [] => core | _ => filename end in unused st name -> asks_valid own opts asked -> places m (r_cols r) ix ->
  exists f own' h' o' r',
    OutputToMongoDB feq s ord saved st h own r core filename opts false = Ok (true, st ++ [f], r, own') /\ gf_name f = name /\
    ReadFromMongoDB pick feq s ord' (st ++ [f]) name true (Some m) true dflt nv asked = Ok (true, h', o', Some r') /\
    same_grid r r'.
Proof.
  intros FP U C HC G SZ OH OO OP SO CT CV SV name UN AV PL. pose proof C as (R0 & C0 & _ & _ & _ & _ & _ & _ & _ & SS & FI).
  destruct (C84_by_rank pick feq s ord ord' saved st h own opts r ix core filename x y cs nd asked m ix dflt nv FP U C HC G SZ OH OO OP SO CT CV SV UN AV PL eq_refl SS FI)
    as (f & own' & h' & o' & r' & W & FN & R & CR & E1 & E2 & E3 & E4 & V).
  exists f, own', h', o', r'. split; [exact W|]. split; [exact FN|]. split; [exact R|]. repeat (split; [assumption|]).
  intros i j lyr I J L. assert (IS : inside r i j) by (split; assumption). assert (IS' : inside r' i j) by (unfold inside; rewrite E1, E2; auto).
  assert (LO' : layer_ok r' lyr) by (unfold layer_ok; rewrite E3; lia).
  destruct (GetValue_compact r ix i j lyr C IS L) as [(q & _ & Q & EC & V1)|(_ & NI & V1)].
  - specialize (V (Z.to_nat q) _ _ lyr EC EC L). rewrite Z.div_add_l, Z.div_small, Z.add_0_r in V by lia. rewrite Z.add_comm, Z.mod_add, Z.mod_small in V by lia. exact V.
  - destruct (GetValue_compact r' ix i j lyr CR IS' LO') as [(q & _ & _ & EC & _)|(_ & _ & V2)].
    + exfalso. apply NI. rewrite <- E2. eapply nth_error_In. exact EC.
    + rewrite V1, V2, E4. reflexivity.
Qed.
Print Assumptions C84_round_trip.
