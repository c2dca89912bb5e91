(** Subsets in GridFS: when a file cannot be saved; one file for all subsets. *)
From Coq Require Import ZArith Ascii String List Bool Lia Sorted ZifyBool.
From Verif Require Import Base ListLib StrModel StrProofs MapModel MapProofs RasterModel RasterSpec RasterProofs BasicModel FloatModel CoordFloatModel TypeModel MongoModel MongoProofs CopyModel NumModel AscModel SubsetModel SubsetSpec SubsetProofs SubsetProofs2 SubsetProofs3 SubsetProofs4 SubsetProofs5 SubsetProofs6 CellModel CellSpec GdalModel GridfsModel GridfsSpec GridfsProofs GridfsProofs2 GridfsProofs3 GridfsProofs6 SubGridModel SubGridSpec SubGridProofs SubGridProofs2.
Import ListNotations.
Open Scope Z_scope.
Open Scope outcome_scope.

(** ** Built subsets have their places *)
Lemma built_placed {T} (feq : T -> T -> bool) (toint : T -> option Z) (r : raster T) ix groups ord (subs : list (Z * subset f64)) :
  compact r ix -> zones_fit feq toint r -> BuildSubSet feq toint ord r [] groups = Ok (r, subs, true) ->
  forall k u, In (k, u) subs -> exists g li, placed u g li.
Proof.
  intros C F E k u I. destruct (windows feq toint r ix groups ord subs C F E k u I) as (g & lp & li & (G & LP & LI & N & L1 & L2) & BB & SL & _ & FP & FL).
  exists g, li. assert (NE : g <> []) by (destruct BB as (_ & (vi & col & J & _) & _); intros ->; destruct J).
  assert (W : 0 <= s_erow u - s_srow u /\ 0 <= s_ecol u - s_scol u).
  { destruct lp as [|p lp]; [destruct g; [congruence|discriminate]|]. inversion FP; subst. lia. }
  unfold placed. repeat split; try assumption; try lia.
Qed.
Lemma built_NoDup {T} (feq : T -> T -> bool) (toint : T -> option Z) (r : raster T) ix groups ord (subs : list (Z * subset f64)) :
  compact r ix -> zones_fit feq toint r -> BuildSubSet feq toint ord r [] groups = Ok (r, subs, true) -> NoDup (map fst subs).
Proof.
  intros C F E. destruct (partition (D := f64) feq toint r ix groups ord C F) as (subs' & E' & S & _). assert (subs' = subs) by congruence. subst subs'. apply sorted_NoDup. exact S.
Qed.
Lemma refill_fst {D} (f : Z * subset D -> subset D) subs : map fst (refill f subs) = map fst subs.
Proof. unfold refill. rewrite map_map. reflexivity. Qed.

(** ** A file that cannot be saved *)
Lemma write_tries_no n saved st name b len meta : Z.of_nat (length b) = len -> (forall k, (k < n)%nat -> saved k = false) ->
  write_tries n saved st name (Some b) len meta = Ok (false, st).
Proof.
  intros L. induction n as [|n IH]; intros S; [reflexivity|]. cbn [write_tries].
  assert (W : WriteStreamData false st name (Some b) len meta = Ok (false, st)).
  { unfold WriteStreamData. destruct (Z.eqb_spec len 0) as [Z0|Z0]; [reflexivity|].
    cbn [deref obind]. replace ((len <? 0) || (Z.of_nat (length b) <? len)) with false by lia. reflexivity. }
  rewrite (S n) by lia. rewrite W. cbn [obind fst snd]. apply IH. intros k K. apply S. lia.
Qed.
Lemma write_no s t saved st name h vs ws opts :
  s <> RDT_Unknown -> storable h opts -> target s opts t -> converted s t vs ws -> (forall k, (k < 4)%nat -> saved k = false) -> unused st name ->
  WriteStreamDataAsGridfs s saved st name h (Some vs) (Z.of_nat (length vs)) opts = Ok (false, st).
Proof.
  intros U (N1 & N2 & K1 & K2 & FM & PO) T C SV UN. unfold WriteStreamDataAsGridfs. cbv zeta. fold (cur s opts).
  unfold RemoveFile, query. rewrite (options_fields _ (cur_plain s opts N2 PO)). cbn [obind app].
  rewrite filter_kept by exact UN. rewrite (header_fields_ok h FM). cbn [obind]. destruct (target_cur s opts t N2 T U) as (w & E & EW).
  unfold at_get. rewrite E. cbn [obind]. rewrite EW, (stream_ok s t vs ws C). cbn [obind fst snd].
  rewrite (options_fields _ (cur_plain s opts N2 PO)). cbn [obind]. apply write_tries_no; [|exact SV].
  rewrite stream_length, (converted_length s t vs ws C). reflexivity.
Qed.

Section Fails.
Variables (s : rdt) (toint : num -> option Z) (r : raster num) (dv x y cs : f64) (rows : Z) (name : bytes) (own : smap bytes) (include : bool) (default : f64).
Variables (L : Z -> Z) (val : Z -> Z -> Z -> f64) (conv : Z -> Z -> Z -> num) (saved : Z -> nat -> bool).
Hypotheses (SU : s <> RDT_Unknown) (OO : object_options own) (TG : target s own s) (FC : fits_meta (str "CELLSIZE") cs).
Notation ready := (ready s x y cs rows L val conv (fun _ _ => true)).

Lemma put_off st h k u : keyed h -> ready k u -> exists h', keyed h' /\
  put_subset s toint saved r dv x y rows cs name own include false [] default (false, st, h) (k, u) = Ok (false, st, h').
Proof.
  intros KH (IK & (g & li & P) & HO & _ & _ & CV). unfold put_subset. cbn [fst snd]. destruct (s_usable u); cbn [negb]; [|exists h; split; [exact KH|reflexivity]].
  destruct (prepare_ok s toint r dv k u g li (L k) (val k) (conv k) include default P HO CV) as (d & PE & _).
  rewrite PE. cbn [obind]. pose proof HO as (_ & L0 & _). replace (L k =? 0) with false by lia. eexists. split; [|reflexivity].
  apply (sub_hdr_keyed u x y rows cs (as_double (r_nodata r)) h (L k)). exact KH.
Qed.

Lemma put_fail st h k u : keyed h -> ready k u -> s_usable u = true -> unused st (subset_name k name) -> (forall n, (n < 4)%nat -> saved k n = false) ->
  exists h', keyed h' /\ put_subset s toint saved r dv x y rows cs name own include false [] default (true, st, h) (k, u) = Ok (false, st, h').
Proof.
  intros KH (IK & (g & li & P) & HO & (DX & DY & DI) & _ & CV) US UN SV.
  destruct (prepare_ok s toint r dv k u g li (L k) (val k) (conv k) include default P HO CV) as (d & PE & LD & VD1 & VD2).
  unfold put_subset. cbn [fst snd]. rewrite US, PE. cbn [negb obind]. pose proof HO as (_ & L0 & _). replace (L k =? 0) with false by lia.
  pose proof (placed_le u g li P) as PL. assert (C0 : 0 < count include u <= win u) by (destruct include; cbn [count]; lia).
  assert (0 < count include u * L k) by (apply Z.mul_pos_pos; lia). replace (count include u * L k <=? 0) with false by lia. rewrite Z.quot_mul by lia.
  fold (sub_hdr u x y rows cs (as_double (r_nodata r)) h (L k) (count include u)).
  set (h' := sub_hdr u x y rows cs (as_double (r_nodata r)) h (L k) (count include u)).
  destruct (placed_win u g li P) as [W1 W2].
  destruct (int_parts _ _ (count include u) (L k) W1 W2 C0 L0 DI) as (I1 & I2 & I3 & I4 & _).
  destruct (sub_storable u x y rows cs (as_double (r_nodata r)) h (L k) (count include u) own KH OO DX DY FC I1 I2 I3 I4) as [ST SZ]. fold h' in ST, SZ.
  assert (CD : converted s s d d) by (left; split; reflexivity).
  rewrite <- LD, (write_no s s (saved k) st (subset_name k name) h' d d own SU ST TG CD SV UN). cbn [obind fst snd].
  exists h'. split; [apply sub_hdr_keyed; exact KH|reflexivity].
Qed.

Lemma put_rest : forall subs st h, keyed h -> (forall k u, In (k, u) subs -> s_usable u = true -> ready k u) ->
  exists h', ofold (put_subset s toint saved r dv x y rows cs name own include false [] default) subs (false, st, h) = Ok (false, st, h').
Proof.
  induction subs as [|[k u] subs IH]; intros st h KH R; [exists h; reflexivity|]. cbn [ofold].
  assert (Q : exists h', keyed h' /\ put_subset s toint saved r dv x y rows cs name own include false [] default (false, st, h) (k, u) = Ok (false, st, h')).
  { destruct (s_usable u) eqn:US; [apply put_off; [exact KH|apply R; [left; reflexivity|exact US]]|].
    exists h. split; [exact KH|]. unfold put_subset. cbn [snd]. rewrite US. reflexivity. }
  destruct Q as (h' & K' & ->). cbn [obind]. apply IH; [exact K'|]. intros k' u' I. apply R. right. exact I.
Qed.

(** Once the first file fails nothing is stored. *)
Lemma put_none : forall subs st h k0 u0 pre post, subs = pre ++ (k0, u0) :: post -> (forall k u, In (k, u) pre -> s_usable u = false) -> s_usable u0 = true ->
  keyed h -> (forall k u, In (k, u) subs -> s_usable u = true -> ready k u) -> unused st (subset_name k0 name) -> (forall n, (n < 4)%nat -> saved k0 n = false) ->
  exists h', ofold (put_subset s toint saved r dv x y rows cs name own include false [] default) subs (true, st, h) = Ok (false, st, h').
Proof.
  intros subs st h k0 u0 pre post -> NP US KH R UN SV. rewrite ofold_app.
  assert (E : ofold (put_subset s toint saved r dv x y rows cs name own include false [] default) pre (true, st, h) = Ok (true, st, h)).
  { clear - NP. induction pre as [|[k u] pre IH]; [reflexivity|]. cbn [ofold].
    match goal with |- context [obind ?m _] => replace m with (Ok (true, st, h)) by (unfold put_subset; cbn [snd]; rewrite (NP k u (or_introl eq_refl)); reflexivity) end.
    cbn [obind]. apply IH. intros k' u' I. apply (NP k' u'). right. exact I. }
  rewrite E. cbn [obind ofold].
  destruct (put_fail st h k0 u0 KH (R k0 u0 ltac:(apply in_app_iff; right; left; reflexivity) US) US UN SV) as (h1 & K1 & ->). cbn [obind].
  apply put_rest; [exact K1|]. intros k u I. apply R. apply in_app_iff. right. right. exact I.
Qed.
End Fails.

(** ** One file for all subsets *)
Definition comb_hdr (h : smap f64) (L n : Z) : smap f64 := UpdateMap (UpdateMap (CopyMap h []) K_LAYERS (of_int L)) K_CELLSNUM (of_int n).
Lemma comb_hdr_lookup h L n k : NoDup (map fst h) ->
  lookup (comb_hdr h L n) k = if beqb K_CELLSNUM k then Some (of_int n) else if beqb K_LAYERS k then Some (of_int L) else lookup h k.
Proof.
  intros N. unfold comb_hdr. rewrite !lookup_UpdateMap, (CopyMap_lookup h N [] k). cbn [lookup]. destruct (beqb K_CELLSNUM k), (beqb K_LAYERS k), (lookup h k); reflexivity.
Qed.
Lemma comb_storable {T} (r : raster T) h x y cs nd L n o : object_header h r x y cs nd -> in_int L -> in_int n -> object_options o -> in_int (r_rows r) -> in_int (r_cols r) ->
  storable (comb_hdr h L n) o /\ sizes (comb_hdr h L n) (r_rows r) (r_cols r) L n.
Proof.
  intros (N & K & F & H1 & H2 & _) IL IN (NO & KO & PO) IR IC.
  assert (NH : NoDup (map fst (comb_hdr h L n))) by (unfold comb_hdr; repeat apply UpdateMap_NoDup; apply CopyMap_NoDup; constructor).
  assert (A : forall k v, In (k, v) (comb_hdr h L n) -> In k header_keys /\ fits_meta k v).
  { intros k v I. apply (GridfsProofs2.lookup_In _ k v NH) in I. rewrite comb_hdr_lookup in I by exact N.
    destruct (beqb K_CELLSNUM k) eqn:B1; [injection I as <-; apply beqb_true in B1; subst k; split; [apply key_in; cbn [In]; auto 12|apply int_fits; exact IN]|].
    destruct (beqb K_LAYERS k) eqn:B2; [injection I as <-; apply beqb_true in B2; subst k; split; [apply key_in; cbn [In]; auto 12|apply int_fits; exact IL]|].
    apply lookup_found in I. split; [apply K; change k with (fst (k, v)); apply in_map; exact I|]. destruct (F k v I) as [->|Q]; [discriminate B1|exact Q]. }
  split.
  - split; [exact NH|]. split; [exact NO|]. split; [|split; [exact KO|split; [intros k v I; apply (A k v I)|exact PO]]].
    intros k I. apply in_map_iff in I. destruct I as ([k' v] & <- & I). apply (A k' v I).
  - unfold sizes. rewrite !comb_hdr_lookup by exact N. repeat split; first [exact H1|exact H2|apply IR|apply IC|apply IL|apply IN].
Qed.

Section Combined.
Variables (feq : num -> num -> bool) (toint : num -> option Z) (s : rdt) (r : raster num) (ix : list Z) (groups : list (Z * Z)) (ord : list nat) (subs : list (Z * subset f64)).
Variable f : Z * subset f64 -> subset f64.
Hypotheses (C : compact r ix) (F : zones_fit feq toint r) (B : BuildSubSet feq toint ord r [] groups = Ok (r, subs, true))
  (KC : forall ks, same_cells (snd ks) (f ks)).
Variables (L : Z) (V : Z -> Z -> f64) (conv : Z -> Z -> num) (dv default : f64) (dfv : num).
Hypotheses (HO : forall k u g, In (k, u) (refill f subs) -> s_usable u = true -> s_global u = Some g -> holds u L (fun i l => V (nth (Z.to_nat i) g 0) l))
  (CV : forall vi l, 0 <= l < L -> (exists k u g, In (k, u) (refill f subs) /\ s_usable u = true /\ s_global u = Some g /\ In vi g) -> cvt s (VD (V vi l)) = Ok (conv vi l))
  (US : exists k u, In (k, u) (refill f subs) /\ s_usable u = true).
Let def := if FloatEqual default nodata_value then dv else default.
Hypothesis DV : cvt s (VD def) = Ok dfv.

Lemma comb_prepare : 0 < L /\ exists d,
  PrepareCombSubsetData FloatEqual toint as_double (to_cell s) nodata_value r dv (refill f subs) false true [] default = Ok (Some (d, r_rows r * r_cols r * L, L)) /\
  Z.of_nat (length d) = r_rows r * r_cols r * L /\
  (forall k u vi row col l, In (k, u) (refill f subs) -> in_group feq toint r groups k vi -> SubsetSpec.cell_at r vi row col -> 0 <= l < L ->
     nth_error d (Z.to_nat ((row * r_cols r + col) * L + l)) =
     Some (if s_usable u then conv vi l else if FloatEqual (as_double (r_nodata r)) def then r_nodata r else dfv)) /\
  (forall row col l, inside r row col -> 0 <= l < L -> (forall k vi, in_group feq toint r groups k vi -> ~ SubsetSpec.cell_at r vi row col) ->
     nth_error d (Z.to_nat ((row * r_cols r + col) * L + l)) = Some (r_nodata r)).
Proof.
  destruct (Build_compact (D := f64) feq toint r ix groups C F ord) as (subs' & E' & KS & ZF). assert (subs' = subs) by congruence. subst subs'.
  set (cel := fun k => cells feq toint r groups k (all r)). set (fin := final (D := f64) r ix).
  assert (FIN : forall k u, In (k, u) (refill f subs) -> u = f (k, fin (cel k)) /\ In (k, fin (cel k)) subs /\ s_global u = Some (cel k) /\ s_n u = Z.of_nat (length (cel k)) /\ cel k <> []).
  { intros k u I. unfold refill in I. apply in_map_iff in I. destruct I as ([k' u'] & E & I). cbn [fst] in E. injection E as -> <-.
    pose proof I as I0. apply (subs_shape feq toint r ix groups subs KS ZF) in I. destruct I as [-> NE]. destruct (KC (k, fin (cel k))) as (A1 & _ & _ & _ & _ & _ & A7). cbn [snd] in *.
    destruct (final_fields (D := f64) r ix (cel k)) as (_ & N & _ & _ & _ & G & _). cbn zeta in *. fold fin in N, G. split; [reflexivity|]. split; [exact I0|]. fold fin (cel k). rewrite A1, A7, N, G. auto. }
  destruct US as (k1 & u1 & I1 & U1).
  assert (L0 : 0 < L) by (destruct (FIN k1 u1 I1) as (_ & _ & G & _); apply (HO k1 u1 _ I1 U1 G)).
  split; [exact L0|].
  assert (LYR : forall k u, In (k, u) (refill f subs) -> s_usable u = true -> s_lyrs u = L /\ isnull (s_data u) && isnull (s_data2 u) = false).
  { intros k u I U. destruct (FIN k u I) as (_ & _ & G & _). destruct (HO k u _ I U G) as (A & _ & D). split; [exact A|]. destruct (L =? 1); destruct D as (d & -> & _); [reflexivity|apply andb_false_r]. }
  destruct (comb_marked feq toint r ix groups C subs KS ZF FloatEqual as_double (to_cell s) f) with (lyrs := L) (recls := @nil (Z * list f64)) (def := def)
    (W := fun k gi l => if s_usable (f (k, fin (cel k))) then conv gi l else dfv) as (d & E & LD & A1 & A2).
  - intros ks. destruct (KC ks) as (Q1 & _ & _ & _ & _ & _ & Q7). auto.
  - exact L0.
  - intros k i l gi Hk Ac Ei Bi Bl. fold (cel k) fin in Hk, Ac, Ei |- *. set (u := f (k, fin (cel k))) in *.
    assert (I : In (k, u) (refill f subs)) by (unfold refill; apply in_map_iff; exists (k, fin (cel k)); auto).
    destruct (FIN k u I) as (_ & _ & G & N & NE). unfold active, direct in Ac. unfold comb_value, direct. destruct (s_usable u) eqn:U; cbn [negb andb orb] in *.
    + pose proof (HO k u _ I U G) as (_ & _ & D).
      assert (IG : In gi (cel k)) by (eapply nth_error_In; exact Ei).
      assert (BI : 0 <= i < s_n u) by (rewrite N; split; [exact Bi|]; assert (Z.to_nat i < length (cel k))%nat by (apply nth_error_Some; congruence); lia).
      assert (CVG : cvt s (VD (V gi l)) = Ok (conv gi l)) by (apply CV; [exact Bl|]; exists k, u, (cel k); auto).
      destruct (Z.eqb_spec L 1) as [E1|E1].
      * destruct D as (d & Ed & Ld & Vd). rewrite Ed. replace (1 <? L) with false by lia. cbn [andb isnull negb deref obind].
        rewrite (aget_ok d i (V gi 0)); [|lia|]. 2:{ rewrite (Vd i BI), (nth_error_nth _ _ 0 Ei). reflexivity. }
        cbn [obind]. assert (l = 0) as -> by lia. unfold to_cell. rewrite CVG. reflexivity.
      * destruct D as (d & Ed & Ld & Vd). rewrite Ed. replace (1 <? L) with true by lia. cbn [andb isnull negb deref obind]. destruct (Vd i BI) as (row & Er & Lr & Vr).
        rewrite (aget_ok d i row); [|lia|exact Er]. cbn [obind]. rewrite (aget_ok row l (V gi l)); [|lia|]. 2:{ rewrite (Vr l Bl), (nth_error_nth _ _ 0 Ei). reflexivity. }
        cbn [obind]. unfold to_cell. rewrite CVG. reflexivity.
    + rewrite Ac. unfold to_cell. rewrite DV. reflexivity.
  - fold cel in A1. exists d. split; [|split; [exact LD|split]].
    + unfold PrepareCombSubsetData. change (map (fun ks => (fst ks, f ks)) subs) with (refill f subs) in E.
      destruct (refill f subs) as [|p q] eqn:EX; [destruct I1|]. rewrite <- EX in *. clear p q EX. cbn [recls_layers].
      assert (SL : subset_layers true (refill f subs) (-1) = Some L).
      { assert (G : forall l acc, incl l (refill f subs) -> (acc = L \/ acc = -1 /\ In (k1, u1) l) -> subset_layers true l acc = Some L).
        - induction l as [|[k u] l IH]; intros acc IN Ha; [destruct Ha as [->|[_ []]]; reflexivity|]. cbn [subset_layers].
          assert (IU : In (k, u) (refill f subs)) by (apply IN; left; reflexivity). assert (IN' : incl l (refill f subs)) by (intros z Hz; apply IN; right; exact Hz).
          destruct (s_usable u) eqn:U; cbn [negb].
          + destruct (LYR k u IU U) as [-> ->]. cbn [andb]. destruct (acc <? 0) eqn:Q; [apply IH; auto|]. destruct (L =? acc) eqn:Q1; [apply IH; [exact IN'|left; lia]|lia].
          + apply IH; [exact IN'|]. destruct Ha as [Ha|[Ha [H|H]]]; [auto| |right; split; [exact Ha|exact H]]. congruence.
        - apply G; [apply incl_refl|]. right. split; [reflexivity|exact I1]. }
      rewrite SL. replace ((L <? 0) && (0 <? -1)) with false by lia. replace (L <? 0) with false by lia. fold def.
      pose proof C as (CR & CC & _). assert (0 < r_rows r * r_cols r) by (apply Z.mul_pos_pos; assumption). assert (0 < r_rows r * r_cols r * L) by (apply Z.mul_pos_pos; assumption).
      unfold init1d. replace (r_rows r * r_cols r * L <=? 0) with false by lia. rewrite E. reflexivity.
    + intros k u vi row col l I IG Hc Bl. rewrite (A1 k vi row col l IG Hc Bl). destruct (FIN k u I) as (-> & _). fold fin (cel k). unfold active, direct.
      destruct (s_usable (f (k, fin (cel k)))); cbn [negb andb orb]; [reflexivity|]. destruct (FloatEqual (as_double (r_nodata r)) def); reflexivity.
    + exact A2.
Qed.
End Combined.
