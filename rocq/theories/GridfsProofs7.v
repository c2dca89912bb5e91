(** Reading a raster object. *)
From Coq Require Import ZArith QArith Reals Ascii String List Bool Lia Lra ZifyBool.
From Flocq Require Import Core BinarySingleNaN.
From Verif Require Import Base ListLib StrModel StrProofs MapModel MapProofs RasterModel RasterSpec RasterProofs BasicModel FloatModel FloatProofs CoordFloatModel TypeModel MongoModel MongoProofs CopyModel NumModel NumProofs AscModel AscSpec AscProofs CellModel CellSpec CellProofs CellProofs2 GdalModel GdalProofs3 GridfsModel GridfsSpec GridfsProofs GridfsProofs2 GridfsProofs3 GridfsProofs4 GridfsProofs5 GridfsProofs6.
Import ListNotations.
Open Scope Z_scope.
Open Scope outcome_scope.

Lemma same_q a b : same_number a b -> q_of a = q_of b.
Proof.
  intros [->|(FA & FB & E)]; [reflexivity|]. destruct a as [sa| | |sa ma ea Ha]; try discriminate; destruct b as [sb| | |sb mb eb Hb]; try discriminate.
  - reflexivity.
  - exfalso. cbn [B2R] in E. symmetry in E. apply eq_0_F2R in E. cbn in E. destruct sb; discriminate.
  - exfalso. cbn [B2R] in E. apply eq_0_F2R in E. cbn in E. destruct sa; discriminate.
  - f_equal. apply B2R_inj; auto.
Qed.

Lemma read_field_NoDup hs kv : NoDup (map fst (snd hs)) -> NoDup (map fst (snd (read_field hs kv))).
Proof.
  destruct hs as [h hs]. cbn [snd]. intros N. unfold read_field. destruct (lookup h (fst kv)); cbn [snd]; [exact N|apply UpdateMap_NoDup; exact N].
Qed.
Lemma read_meta_NoDup m : forall h hs, NoDup (map fst hs) -> NoDup (map fst (snd (read_meta m h hs))).
Proof.
  unfold read_meta. intros h hs N. assert (Q : forall p, NoDup (map fst (snd p)) -> NoDup (map fst (snd (fold_left read_field m p)))); [|apply Q; exact N].
  induction m as [|kv m IH]; intros p P; cbn [fold_left]; [exact P|]. apply IH, read_field_NoDup, P.
Qed.

Ltac step E := match type of E with
  | (let* _ := ?m in _) = Ok _ => let F := fresh in destruct m eqn:F; cbn [obind] in E; try discriminate
  | obind ?m _ = Ok _ => let F := fresh in destruct m eqn:F; cbn [obind] in E; try discriminate
  | (if ?c then _ else _) = Ok _ => destruct c; try discriminate
  end.
Lemma read_options_NoDup pick s st name h hs asked b h' hs' d : NoDup (map fst hs) ->
  ReadGridFsFile pick s st name h hs asked = Ok (b, h', hs', d) -> NoDup (map fst hs').
Proof.
  intros N E. unfold ReadGridFsFile in E. step E. destruct a as [f|]; [|injection E as <- <- <- <-; exact N].
  pose proof (read_meta_NoDup (gf_meta f) h hs N) as M. destruct (read_meta (gf_meta f) h hs) as [h1 hs1]. cbn [snd] in M.
  repeat step E; try (injection E as <- <- <- <-; exact M).
  cbv zeta in E. destruct (RasterDataTypeInOptionals hs1); repeat step E; injection E as <- <- <- <-; exact M.
Qed.

Section Read.
Variables (pick : list gfile -> option gfile) (feq : num -> num -> bool) (s : rdt) (ord : list nat) (st : list gfile) (name : bytes) (ext : bool)
  (dflt nv : num) (asked : smap bytes).

Definition sought : smap bytes :=
  match lookup asked K_INCNODATA with Some _ => CopyMap asked [] | None => UpdateMap (CopyMap asked []) K_INCNODATA (str "TRUE") end.
Definition start : smap f64 := map (fun kv => (fst kv, of_int (snd kv))) InitialHeader.

Variables (r : raster num) (h' : smap f64) (hs' : smap bytes) (vs : list num) (x y cs nd : f64).
Hypotheses (RD : ReadGridFsFile pick s st name start InitialStrHeader sought = Ok (true, h', hs', Some vs))
  (INC : lookup hs' K_INCNODATA = Some (str "TRUE"))
  (HR : exists v, lookup h' K_NROWS = Some v /\ same_number (of_int (r_rows r)) v)
  (HC : exists v, lookup h' K_NCOLS = Some v /\ same_number (of_int (r_cols r)) v)
  (HL : exists v, lookup h' K_LAYERS = Some v /\ same_number (of_int (r_nlyrs r)) v)
  (HN : exists v, lookup h' K_CELLSNUM = Some v /\ same_number (of_int (r_rows r * r_cols r)) v)
  (HX : exists v, lookup h' K_XLL = Some v /\ same_number x v) (HY : exists v, lookup h' K_YLL = Some v /\ same_number y v)
  (HS : exists v, lookup h' K_CELLSIZE = Some v /\ same_number cs v) (HV : lookup h' K_NODATA = Some nd)
  (CV : cvt s (VD nd) = Ok (r_nodata r)) (NL : 1 <= r_nlyrs r) (G : grid_size (r_rows r) (r_cols r)) (IL : in_int (r_nlyrs r))
  (CM : cell_major r vs).

Definition read_raster (rows : list (list num)) (calc : bool) : raster num :=
  mkRaster (r_rows r) (r_cols r) (q_of x) (q_of y) (q_of cs) (r_nodata r) (r_rows r * r_cols r) (r_nlyrs r) (r_rows r * r_cols r) (r_nlyrs r) (r_nodata r)
    (checked_default feq dflt (r_nodata r) nv) (negb (r_nlyrs r =? 1)) (if r_nlyrs r =? 1 then Some vs else None) (if r_nlyrs r =? 1 then None else Some rows)
    None None calc false false true.

Lemma read_with calc : exists rows, (r_nlyrs r <> 1 -> gather vs (r_nlyrs r) (r_rows r * r_cols r) None = Ok rows) /\
  ReadFromMongoDB pick feq s ord st name calc None ext dflt nv asked =
  let* m := CalcNoMask feq ord (read_raster rows calc) in
  Ok (0 <=? snd m, h', CopyMap hs' (CopyMap asked InitialStrHeader), Some (fst m)).
Proof using RD INC HR HC HL HN HX HY HS HV CV NL G IL CM.
  destruct HR as (vr & R1 & R2), HC as (vc & C1 & C2), HL as (vl & L1 & L2), HN as (vn & N1 & N2), HX as (vx & X1 & X2), HY as (vy & Y1 & Y2), HS as (vz & S1 & S2).
  destruct G as (GR & GC & GN). assert (FP : 1 <= r_rows r * r_cols r) by nia.
  assert (IR : in_int (r_rows r)) by (unfold in_int, INT_MIN, INT_MAX in *; nia). assert (IC : in_int (r_cols r)) by (unfold in_int, INT_MIN, INT_MAX in *; nia).
  assert (IF : in_int (r_rows r * r_cols r)) by (unfold in_int, INT_MIN, INT_MAX in *; lia).
  assert (ND : NoDup (map fst hs')). { eapply read_options_NoDup; [|exact RD]. vm_compute. repeat constructor; cbn; intuition discriminate. }
  destruct (gather_all vs (r_nlyrs r) (r_rows r * r_cols r) NL) as (rows & GA & _); [lia|exact (proj1 CM)|].
  exists rows. split; [intros _; exact GA|].
  unfold ReadFromMongoDB. cbv zeta. change (map (fun kv => (fst kv, of_int (snd kv))) InitialHeader) with start.
  change (match lookup asked K_INCNODATA with Some _ => CopyMap asked [] | None => UpdateMap (CopyMap asked []) K_INCNODATA (str "TRUE") end) with sought.
  rewrite RD. cbn [obind negb]. unfold at_get at 1. rewrite (CopyMap_lookup hs' ND _ K_INCNODATA), INC. cbn [obind].
  change (StringMatch (str "TRUE") (str "FALSE")) with false. cbn [negb andb].
  unfold at_get. rewrite R1, C1, L1, HV, N1, X1, Y1, S1. cbn [obind].
  rewrite <- (same_f_int _ _ R2), (f_int_of_int _ IR). cbn [obind]. rewrite <- (same_f_int _ _ C2), (f_int_of_int _ IC). cbn [obind].
  rewrite <- (same_f_int _ _ L2), (f_int_of_int _ IL). cbn [obind]. rewrite (imul_ok _ _ GR GC GN). cbn [obind]. rewrite CV. cbn [obind].
  rewrite <- (same_f_int _ _ N2), (f_int_of_int _ IF). cbn [obind]. rewrite Z.eqb_refl. cbn [negb]. rewrite orb_false_r. cbn [isnull deref obind negb andb].
  rewrite andb_true_r. rewrite <- (same_q _ _ X2), <- (same_q _ _ Y2), <- (same_q _ _ S2). unfold read_raster.
  destruct (Z.eqb_spec (r_nlyrs r) 1) as [E1|E1]; cbn [andb negb obind]; [reflexivity|]. rewrite GA. cbn [obind]. replace (r_rows r * r_cols r <? 0) with false by lia. reflexivity.
Qed.

Lemma read_full rows calc : (r_nlyrs r <> 1 -> gather vs (r_nlyrs r) (r_rows r * r_cols r) None = Ok rows) -> full_grid (read_raster rows calc).
Proof using NL G CM.
  intros GA. clear - CM G NL GA. destruct G as (GR & GC & GN). assert (FP : 1 <= r_rows r * r_cols r) by nia. unfold full_grid, storage, read_raster. cbn [r_rows r_cols r_nlyrs r_ncells r_is2d r_data r_data2d r_pos r_posidx].
  repeat (split; [first [assumption|reflexivity]|]). split; [|split; reflexivity].
  destruct (Z.eqb_spec (r_nlyrs r) 1) as [E1|E1]; cbn [negb].
  - split; [exact E1|]. exists vs. split; [reflexivity|]. pose proof (proj1 CM). rewrite E1 in *. lia.
  - destruct (gather_all vs (r_nlyrs r) (r_rows r * r_cols r) NL) as (rows' & GA' & LR & F & _); [lia|exact (proj1 CM)|].
    rewrite (GA E1) in GA'. injection GA' as <-. exists rows. auto.
Qed.

Lemma read_same rows calc : (r_nlyrs r <> 1 -> gather vs (r_nlyrs r) (r_rows r * r_cols r) None = Ok rows) -> same_grid r (read_raster rows calc).
Proof using NL G CM.
  intros GA. clear - CM G NL GA. pose proof (read_full rows calc GA) as F. destruct G as (GR & GC & GN). assert (FP : 1 <= r_rows r * r_cols r) by nia.
  repeat (split; [reflexivity|]). intros i j lyr I J LY. pose proof (inside_cell r i j I J) as IC.
  destruct (proj2 CM i j lyr I J LY) as (v & EV & GV). rewrite GV, (GetValue_full _ i j lyr F); [|split; assumption|exact LY].
  unfold read_cell, read_raster. cbn [r_is2d r_data r_data2d r_cols]. destruct (Z.eqb_spec (r_nlyrs r) 1) as [E1|E1]; cbn [negb deref obind].
  - apply aget_ok; [lia|]. rewrite <- EV. f_equal. rewrite E1. f_equal. lia.
  - destruct (gather_all vs (r_nlyrs r) (r_rows r * r_cols r) NL) as (rows' & GA' & LR & FA & N); [lia|exact (proj1 CM)|].
    rewrite (GA E1) in GA'. injection GA' as <-. destruct (nth_error rows (Z.to_nat (i * r_cols r + j))) as [c|] eqn:EC; [|apply nth_error_None in EC; lia].
    rewrite (aget_ok rows _ c) by (lia || exact EC). cbn [obind]. apply aget_ok; [lia|]. rewrite (N (i * r_cols r + j) c (lyr - 1) ltac:(lia) EC ltac:(lia)). exact EV.
Qed.
End Read.
