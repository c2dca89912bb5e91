(** Files of valid cells only. *)
From Coq Require Import ZArith QArith Reals Ascii String List Bool Lia Lra Sorted ZifyBool.
From Flocq Require Import Core BinarySingleNaN.
From Verif Require Import Base ListLib StrModel StrProofs MapModel MapProofs RasterModel RasterSpec RasterProofs BasicModel FloatModel FloatProofs CoordFloatModel TypeModel MongoModel MongoProofs CopyModel NumModel NumProofs AscModel AscSpec AscProofs CellModel CellSpec CellProofs CellProofs2 GdalModel GdalProofs3 GridfsModel GridfsSpec GridfsProofs GridfsProofs2 GridfsProofs3 GridfsProofs4 GridfsProofs5 GridfsProofs6 GridfsProofs7.
Import ListNotations.
Open Scope Z_scope.
Open Scope outcome_scope.

(** The stored cells one after the other. *)
Definition stored_major (r : raster num) (n : Z) (vs : list num) : Prop :=
  Z.of_nat (length vs) = r_nlyrs r * n /\
  forall i k, 0 <= i < n -> 0 <= k < r_nlyrs r -> exists v, nth_error vs (Z.to_nat (r_nlyrs r * i + k)) = Some v /\ read_cell r i (k + 1) = Ok v.

Lemma stored_array r n : storage r n -> 1 <= r_nlyrs r -> 0 < n ->
  exists vs, (if r_is2d r then exists d, r_data2d r = Some d /\ d <> [] /\ vs = concat d else r_nlyrs r = 1 /\ r_data r = Some vs) /\ stored_major r n vs.
Proof.
  intros ST NL NP. unfold storage in ST. destruct (r_is2d r) eqn:D2.
  - destruct ST as (d & ED & LD & FD). assert (FD' : Forall (fun c => length c = Z.to_nat (r_nlyrs r)) d) by (eapply Forall_impl; [|exact FD]; intros c; cbv beta; lia).
    exists (concat d). split; [exists d; split; [exact ED|]; split; [|reflexivity]; intros ->; cbn [length] in LD; lia|].
    split; [rewrite (concat_length _ d FD'); nia|]. intros i k I K.
    destruct (nth_error d (Z.to_nat i)) as [c|] eqn:E; [|apply nth_error_None in E; lia].
    assert (LC : Z.of_nat (length c) = r_nlyrs r) by (rewrite Forall_forall in FD; apply FD; eapply nth_error_In; eassumption).
    destruct (nth_error c (Z.to_nat k)) as [v|] eqn:E2; [|apply nth_error_None in E2; lia]. exists v. split.
    + replace (Z.to_nat (r_nlyrs r * i + k)) with (Z.to_nat (r_nlyrs r) * Z.to_nat i + Z.to_nat k)%nat by nia.
      rewrite (concat_nth _ d FD' _ c _ E) by lia. exact E2.
    + unfold read_cell. rewrite D2, ED. cbn [deref obind]. rewrite (aget_ok d _ c) by (lia || exact E). cbn [obind]. replace (k + 1 - 1) with k by lia. apply aget_ok; [lia|exact E2].
  - destruct ST as (L1 & d & ED & LD). exists d. split; [auto|]. split; [rewrite L1; lia|]. intros i k I K.
    destruct (nth_error d (Z.to_nat i)) as [v|] eqn:E; [|apply nth_error_None in E; lia]. exists v. rewrite L1. replace (1 * i + k) with i by lia. split; [exact E|].
    unfold read_cell. rewrite D2, ED. cbn [deref obind]. apply aget_ok; [lia|exact E].
Qed.

Lemma sorted_NoDup ix : StronglySorted Z.lt ix -> NoDup ix.
Proof. intros SO. induction SO as [|a l S IH F]; constructor; [|exact IH]. intros I. rewrite Forall_forall in F. specialize (F a I). lia. Qed.

(** A cell a compact raster has: by rank and by place. *)
Lemma compact_rank {T} (r : raster T) ix q c lyr : compact r ix -> nth_error ix q = Some c -> layer_ok r lyr ->
  GetValue r (c / r_cols r) (c mod r_cols r) lyr = read_cell r (Z.of_nat q) lyr /\ inside r (c / r_cols r) (c mod r_cols r).
Proof.
  intros C E L. pose proof C as (R0 & C0 & NL & NC & NI & ST & _ & _ & PO & SO & FI).
  assert (CB : 0 <= c < r_rows r * r_cols r) by (rewrite Forall_forall in FI; apply FI; eapply nth_error_In; eassumption).
  assert (I : inside r (c / r_cols r) (c mod r_cols r)).
  { split; [split; [apply Z.div_pos; lia|apply Z.div_lt_upper_bound; nia]|apply Z.mod_pos_bound; lia]. }
  split; [|exact I]. assert (DM : c / r_cols r * r_cols r + c mod r_cols r = c) by (rewrite Z.mul_comm; symmetry; apply Z.div_mod; lia).
  destruct (GetValue_compact r ix _ _ lyr C I L) as [(m & _ & M & EM & V)|(_ & NI' & _)].
  - rewrite V. f_equal. rewrite DM in EM. assert (Z.to_nat m = q); [|lia].
    apply (proj1 (NoDup_nth_error ix) (sorted_NoDup ix SO)); [apply nth_error_Some; congruence|congruence].
  - exfalso. apply NI'. rewrite DM. eapply nth_error_In. eassumption.
Qed.

Section Valid.
Variables (s : rdt) (feq : num -> num -> bool) (ord : list nat) (saved : nat -> bool) (st : list gfile) (h : smap f64) (own opts : smap bytes) (r : raster num)
  (core filename : bytes) (x y cs nd : f64) (ix : list Z).
Hypotheses (C : compact r ix) (G : grid_size (r_rows r) (r_cols r)) (SZ : r_nlyrs r * r_ncells r <= INT_MAX)
  (OH : object_header h r x y cs nd) (HC : r_hcells r = r_ncells r).

Lemma valid_sizes : in_int (r_rows r) /\ in_int (r_cols r) /\ in_int (r_nlyrs r) /\ in_int (r_ncells r) /\ imul (r_rows r) (r_cols r) = Ok (r_rows r * r_cols r) /\
  imul (r_nlyrs r) (r_ncells r) = Ok (r_nlyrs r * r_ncells r) /\ in_int (r_ncells r * r_nlyrs r).
Proof using C G SZ.
  destruct C as (_ & _ & NL & NC & _). destruct G as (A & B & D). rewrite (imul_ok (r_rows r) (r_cols r)) by lia. rewrite (imul_ok (r_nlyrs r)) by lia.
  unfold in_int, INT_MIN, INT_MAX in *. repeat split; try reflexivity; nia.
Qed.

Lemma output_valid : exists vs, stored_major r (r_ncells r) vs /\
  OutputToMongoDB feq s ord saved st h own r core filename opts false =
  let* w := WriteStreamDataAsGridfs s saved st (name_of core filename) (file_header h (r_ncells r)) (Some vs) (Z.of_nat (length vs)) (output_options s own opts false) in
  Ok (fst w, snd w, r, output_options s own opts false).
Proof using C G SZ OH HC.
  destruct valid_sizes as (IR & IC & IL & IE & M1 & M2 & IN). pose proof OH as (_ & _ & _ & A & B & _). pose proof C as (_ & _ & NL & NC & NI & ST & _ & P1 & P2 & _).
  assert (AR : at_get h K_NROWS = Ok (of_int (r_rows r))) by (unfold at_get; change K_NROWS with (str "NROWS"); rewrite A; reflexivity).
  assert (AC : at_get h K_NCOLS = Ok (of_int (r_cols r))) by (unfold at_get; change K_NCOLS with (str "NCOLS"); rewrite B; reflexivity).
  destruct (stored_array r (r_ncells r) ST NL NC) as (vs & D & SM). exists vs. split; [exact SM|].
  unfold OutputToMongoDB. rewrite P1, P2. cbn [isnull negb orb andb obind fst snd]. rewrite P1, P2. cbn [isnull negb orb andb obind fst snd].
  rewrite AR, AC. cbn [obind]. rewrite (f_int_of_int _ IR). cbn [obind]. rewrite (f_int_of_int _ IC). cbn [obind]. rewrite M1. cbn [obind].
  pose proof (proj1 SM) as LV. rewrite HC. destruct (r_is2d r) eqn:D2.
  - destruct D as (d & ED & NE & ->). rewrite ED. cbn [deref obind]. destruct d as [|c d]; [congruence|]. rewrite M2. cbn [obind fst snd]. unfold file_header. rewrite LV. reflexivity.
  - destruct D as (L1 & ->). cbn [obind fst snd]. unfold file_header. rewrite LV, L1. replace (1 * r_ncells r) with (r_ncells r) by lia. reflexivity.
Qed.
End Valid.

(** ** Reading with a mask *)
Section ReadMask.
Variables (pick : list gfile -> option gfile) (feq : num -> num -> bool) (s : rdt) (ord : list nat) (st : list gfile) (name : bytes)
  (dflt nv : num) (asked : smap bytes) (m : mask_view) (ix : list Z).
Variables (r : raster num) (h' : smap f64) (hs' : smap bytes) (vs : list num) (x y cs nd : f64) (n : Z).
Hypotheses (RD : ReadGridFsFile pick s st name start InitialStrHeader (sought asked) = Ok (true, h', hs', Some vs))
  (INC : lookup hs' K_INCNODATA = Some (str "FALSE"))
  (HR : exists v, lookup h' K_NROWS = Some v /\ same_number (of_int (r_rows r)) v)
  (HC : exists v, lookup h' K_NCOLS = Some v /\ same_number (of_int (r_cols r)) v)
  (HL : exists v, lookup h' K_LAYERS = Some v /\ same_number (of_int (r_nlyrs r)) v)
  (HN : exists v, lookup h' K_CELLSNUM = Some v /\ same_number (of_int n) v)
  (HX : exists v, lookup h' K_XLL = Some v /\ same_number x v) (HY : exists v, lookup h' K_YLL = Some v /\ same_number y v)
  (HS : exists v, lookup h' K_CELLSIZE = Some v /\ same_number cs v) (HV : lookup h' K_NODATA = Some nd)
  (CV : cvt s (VD nd) = Ok (r_nodata r)) (NL : 1 <= r_nlyrs r) (G : grid_size (r_rows r) (r_cols r)) (IL : in_int (r_nlyrs r))
  (NP : 0 < n) (IE : in_int n) (SM : stored_major r n vs)
  (PL : places m (r_cols r) ix) (LI : Z.of_nat (length ix) = n) (SO : StronglySorted Z.lt ix) (FI : Forall (fun k => 0 <= k < r_rows r * r_cols r) ix).

Lemma read_masked : exists r', ReadFromMongoDB pick feq s ord st name true (Some m) true dflt nv asked =
    Ok (true, h', CopyMap hs' (CopyMap asked InitialStrHeader), Some r') /\
  compact r' ix /\ r_rows r' = r_rows r /\ r_cols r' = r_cols r /\ r_nlyrs r' = r_nlyrs r /\ r_nodata r' = r_nodata r /\
  forall i k, 0 <= i < n -> 0 <= k < r_nlyrs r -> read_cell r' i (k + 1) = read_cell r i (k + 1).
Proof using All.
  destruct HR as (vr & R1 & R2), HC as (vc & C1 & C2), HL as (vl & L1 & L2), HN as (vn & N1 & N2), HX as (vx & X1 & X2), HY as (vy & Y1 & Y2), HS as (vz & S1 & S2).
  destruct PL as (PV & PC & PI & PP). destruct G as (GR & GC & GN). assert (FP : 1 <= r_rows r * r_cols r) by nia.
  assert (IR : in_int (r_rows r)) by (unfold in_int, INT_MIN, INT_MAX in *; nia). assert (IC : in_int (r_cols r)) by (unfold in_int, INT_MIN, INT_MAX in *; nia).
  assert (ND : NoDup (map fst hs')). { eapply read_options_NoDup; [|exact RD]. vm_compute. repeat constructor; cbn; intuition discriminate. }
  destruct (gather_all vs (r_nlyrs r) n NL) as (rows & GA & LR & FR & NR); [lia|exact (proj1 SM)|].
  exists (mkRaster (r_rows r) (r_cols r) (q_of x) (q_of y) (q_of cs) (r_nodata r) n (r_nlyrs r) n (r_nlyrs r) (r_nodata r)
    (checked_default feq dflt (r_nodata r) nv) (negb (r_nlyrs r =? 1)) (if r_nlyrs r =? 1 then Some vs else None) (if r_nlyrs r =? 1 then None else Some rows)
    (mk_pos m) (mk_idx m) true false true true). split.
  - unfold ReadFromMongoDB. cbv zeta. change (map (fun kv => (fst kv, of_int (snd kv))) InitialHeader) with start.
    change (match lookup asked K_INCNODATA with Some _ => CopyMap asked [] | None => UpdateMap (CopyMap asked []) K_INCNODATA (str "TRUE") end) with (sought asked).
    rewrite RD. cbn [obind negb]. unfold at_get at 1. rewrite (CopyMap_lookup hs' ND _ K_INCNODATA), INC. cbn [obind].
    change (StringMatch (str "FALSE") (str "FALSE")) with true. cbn [negb andb].
    unfold at_get. rewrite R1, C1, L1, HV, N1, X1, Y1, S1. cbn [obind].
    rewrite <- (same_f_int _ _ R2), (f_int_of_int _ IR). cbn [obind]. rewrite <- (same_f_int _ _ C2), (f_int_of_int _ IC). cbn [obind].
    rewrite <- (same_f_int _ _ L2), (f_int_of_int _ IL). cbn [obind]. rewrite (imul_ok _ _ GR GC GN). cbn [obind]. rewrite CV. cbn [obind].
    rewrite <- (same_f_int _ _ N2), (f_int_of_int _ IE). cbn [obind orb andb]. rewrite PV, LI, Z.eqb_refl, PC, PI, PP, LI. cbn [isnull orb negb andb deref obind].
    rewrite <- (same_q _ _ X2), <- (same_q _ _ Y2), <- (same_q _ _ S2).
    destruct (Z.eqb_spec (r_nlyrs r) 1) as [E1|E1]; cbn [andb negb obind]; [reflexivity|]. rewrite GA. cbn [obind]. replace (n <? 0) with false by lia. reflexivity.
  - split; [|repeat (split; [reflexivity|])].
    + unfold compact, storage. cbn [r_rows r_cols r_nlyrs r_ncells r_is2d r_data r_data2d r_pos r_posidx r_calc].
      repeat (split; [first [assumption|reflexivity|lia]|]). split; [|split; [reflexivity|]; split; [exact PI|]; split; [exact PP|]; split; assumption].
      destruct (Z.eqb_spec (r_nlyrs r) 1) as [E1|E1]; cbn [negb]; [split; [exact E1|]; exists vs; split; [reflexivity|]; pose proof (proj1 SM); rewrite E1 in *; lia|].
      exists rows. auto.
    + intros i k I K. destruct (proj2 SM i k I K) as (v & EV & RV). rewrite RV. unfold read_cell. cbn [r_is2d r_data r_data2d].
      destruct (Z.eqb_spec (r_nlyrs r) 1) as [E1|E1]; cbn [negb deref obind].
      * apply aget_ok; [lia|]. rewrite <- EV. f_equal. rewrite E1. f_equal. lia.
      * destruct (nth_error rows (Z.to_nat i)) as [c|] eqn:EC; [|apply nth_error_None in EC; lia].
        rewrite (aget_ok rows _ c) by (lia || exact EC). cbn [obind]. replace (k + 1 - 1) with k by lia. apply aget_ok; [lia|]. rewrite (NR i c k ltac:(lia) EC K). exact EV.
Qed.
End ReadMask.
