(** Proofs about subsets: reclassified combination, unusable subsets, output of
    the single windows. *)
From Coq Require Import ZArith QArith List Bool Lia Sorted ZifyBool ZifyNat Permutation.
From Verif Require Import Base ListLib RasterModel RasterSpec RasterProofs RasterProofs2 RasterProofs3 CoordModel
  SubsetModel SubsetSpec SubsetProofs SubsetProofs2 SubsetProofs3 SubsetProofs4 SubsetProofs5.
Import ListNotations.
Open Scope Z_scope.
Open Scope outcome_scope.

Lemma recls_layers_same {D} (L : Z) : forall (recls : list (Z * list D)) acc,
  Forall (fun kv => Z.of_nat (length (snd kv)) = L) recls -> acc < 0 \/ acc = L ->
  recls_layers recls acc = Some (match recls with [] => acc | _ => L end).
Proof.
  induction recls as [|[k v] t IH]; intros acc F A; [reflexivity|]. inversion F as [|? ? F1 F2]; subst. cbn [snd] in *. cbn [recls_layers].
  destruct (acc <? 0) eqn:E.
  - rewrite IH; auto. destruct t; reflexivity.
  - destruct (acc =? _) eqn:Q; [|lia]. rewrite IH; auto. destruct t; [f_equal; lia|reflexivity].
Qed.

Section Use.
Context {T D : Type}.
Variable feq : T -> T -> bool.
Variable toint : T -> option Z.
Variable r : raster T.
Variable ix : list Z.
Variable groups : list (Z * Z).
Hypothesis C : compact r ix.
Variable subs : list (Z * subset D).
Hypothesis KS : ksorted subs.

Notation cells := (cells feq toint r groups).
Notation all := (all r).
Notation final := (final (D := D) r ix).
Hypothesis ZF : forall k, zfind subs k = opt final (cells k all).
Notation shape := (subs_shape feq toint r ix groups subs KS ZF).

Section Comb.
Variable feqD : D -> D -> bool.
Variable toD : T -> D.
Variable ofD : D -> outcome T.
Variable f : Z * subset D -> subset D.
Hypothesis Hf : forall ks, s_global (f ks) = s_global (snd ks) /\ s_n (f ks) = s_n (snd ks).
Variables (lyrs : Z) (recls : list (Z * list D)) (def : D).
Hypothesis HL : 0 < lyrs.
Notation subs' := (map (fun ks => (fst ks, f ks)) subs).
Notation act := (active feqD toD r def).
Variable W : Z -> Z -> Z -> T.
Hypothesis HW : forall k i l gi, In (k, final (cells k all)) subs -> act (f (k, final (cells k all))) = true ->
  nth_error (cells k all) (Z.to_nat i) = Some gi -> 0 <= i -> 0 <= l < lyrs ->
  comb_value toint ofD r k (f (k, final (cells k all))) (direct feqD toD r def (f (k, final (cells k all)))) lyrs false recls def i l gi = Ok (Some (W k gi l)).

Lemma comb_marked : exists d,
  ofold (comb_subset feqD toint toD ofD r lyrs false true recls def) subs' (Some (repeat (r_nodata r) (Z.to_nat (r_rows r * r_cols r * lyrs)))) = Ok (Some d) /\
  Z.of_nat (length d) = r_rows r * r_cols r * lyrs /\
  (forall k vi row col l, in_group feq toint r groups k vi -> cell_at r vi row col -> 0 <= l < lyrs ->
     nth_error d (Z.to_nat ((row * r_cols r + col) * lyrs + l)) =
     Some (if act (f (k, final (cells k all))) then W k vi l else r_nodata r)) /\
  (forall row col l, inside r row col -> 0 <= l < lyrs ->
     (forall k vi, in_group feq toint r groups k vi -> ~ cell_at r vi row col) ->
     nth_error d (Z.to_nat ((row * r_cols r + col) * lyrs + l)) = Some (r_nodata r)).
Proof.
  pose proof C as (CR & CC & CL & CN & CI & CS & CK & CP & CQ & CO & CF).
  set (V := fun (ks : Z * subset D) vi l => W (fst ks) (nth (Z.to_nat vi) (glob (snd ks)) 0) l).
  assert (GL : forall k s, In (k, s) subs' -> glob s = cells k all /\ s_n s = Z.of_nat (length (cells k all)) /\ In (k, final (cells k all)) subs /\ s = f (k, final (cells k all))).
  { intros k s H. apply in_map_iff in H. destruct H as ([k' s'] & E & H). cbn [fst] in E. injection E as -> <-.
    pose proof H as H0. apply shape in H. destruct H as [-> _]. destruct (Hf (k, final (cells k all))) as [E1 E2].
    destruct (final_fields (D := D) r ix (cells k all)) as (_ & N & _ & _ & _ & G & _). cbn zeta in *.
    unfold glob. rewrite E1, E2. cbn [snd]. rewrite G. auto. }
  destruct (comb_result feqD toint toD ofD r ix C subs' (disjoint_map feq toint r ix groups subs KS ZF f Hf) lyrs false true recls def ltac:(lia) V) with
    (a := repeat (r_nodata r) (Z.to_nat (r_rows r * r_cols r * lyrs))) as (d & E & L & A & B).
  - intros [k s] vi l gi H Ac Bv Bl Eg. cbn [fst snd] in *. destruct (GL k s H) as (G & N & Hk & ->).
    unfold V. cbn [fst snd]. rewrite G in *. rewrite (nth_error_nth _ _ 0 Eg). apply HW; auto. lia.
  - reflexivity.
  - unfold gncells. nia.
  - exists d. split; [exact E|]. split; [exact L|]. unfold target, gncells in A, B.
    assert (TG : forall vi row col, 0 <= vi < r_ncells r -> cell_at r vi row col -> nth (Z.to_nat vi) ix 0 = row * r_cols r + col).
    { intros vi row col Bv Hc. apply (cell_at_p r ix C) in Hc; [|exact Bv]. destruct Hc as [-> ->]. unfold prow, pcol.
      pose proof (Z.div_mod (nth (Z.to_nat vi) ix 0) (r_cols r) ltac:(lia)). lia. }
    assert (TI : forall vi, 0 <= vi < r_ncells r -> exists row col, inside r row col /\ cell_at r vi row col).
    { intros vi Bv. exists (prow r ix vi), (pcol r ix vi). split; [|apply (cell_at_p r ix C); auto].
      split; [apply prow_range|apply pcol_range]; assumption. }
    split.
    + intros k vi row col l I Hc Bl. pose proof (proj1 I) as Bv. pose proof (proj2 (cells_In feq toint r groups k vi) I) as Hi.
      assert (Hin : In (k, final (cells k all)) subs) by (apply shape; split; [reflexivity|intros X; rewrite X in Hi; destruct Hi]).
      assert (Hin' : In (k, f (k, final (cells k all))) subs') by (apply in_map_iff; exists (k, final (cells k all)); auto).
      destruct (GL _ _ Hin') as (G & Nn & _ & _). destruct (In_nth _ _ 0 Hi) as (i & Li & Ei).
      rewrite <- (TG vi row col Bv Hc). destruct (act (f (k, final (cells k all)))) eqn:Ac.
      * specialize (A _ (Z.of_nat i) l Hin'). cbn [snd] in A. rewrite G, Nn, Nat2Z.id, Ei in A. rewrite (A Ac ltac:(lia) Bl).
        unfold V. cbn [fst snd]. rewrite G, Nat2Z.id, Ei. reflexivity.
      * pose proof Hc as Hc0. apply (cell_at_p r ix C) in Hc0; [|exact Bv]. 
        destruct (ix_at r ix C vi Bv) as [_ IB]. apply B; [exact IB|exact Bl|].
        intros [k' s'] gi' H' Ac' Hg' E'. cbn [snd] in *. destruct (GL _ _ H') as (G' & _ & _ & Es). rewrite G' in Hg'.
        apply cells_In in Hg'. assert (gi' = vi).
        { assert (Z.to_nat gi' = Z.to_nat vi); [|destruct Hg'; lia].
          apply (sorted_nth_inj ix _ _ (nth (Z.to_nat vi) ix 0)); [exact CO|rewrite <- E'|]; apply nth_error_nth'; destruct Hg'; lia. }
        subst gi'. pose proof (in_group_fun _ _ _ _ _ _ _ Hg' I). subst k'. congruence.
    + intros row col l I Bl N. apply B; [unfold inside in I; nia|exact Bl|].
      intros [k s] gi H _ Hg E'. cbn [snd] in Hg. destruct (GL _ _ H) as (G & _). rewrite G in Hg. apply cells_In in Hg.
      apply (N k gi Hg). pose proof (proj1 Hg) as Bg. destruct (TI gi Bg) as (row' & col' & I' & Hc).
      pose proof (TG gi row' col' Bg Hc) as Q. destruct I as [_ I1], I' as [_ I2]. destruct (layer_pos_inj (r_cols r) row' row col' col) as [-> ->]; [exact I2|exact I1|lia|exact Hc].
Qed.
End Comb.

(** Reclassification of the marked subsets. *)
Lemma combine_table (feqD : D -> D -> bool) (toD : T -> D) (ofD : D -> outcome T) (conv : D -> T) (dNODATA : D) (us : Z -> bool) (recls : list (Z * list D)) (L : Z) (default dv : D) :
  (forall x, ofD x = Ok (conv x)) -> subs <> [] -> recls <> [] -> 0 < L ->
  Forall (fun kv => Z.of_nat (length (snd kv)) = L) recls ->
  let def := if feqD default dNODATA then dv else default in
  exists d,
  PrepareCombSubsetData feqD toint toD ofD dNODATA r dv (mark us subs) false true recls default = Ok (Some (d, r_rows r * r_cols r * L, L)) /\
  Z.of_nat (length d) = r_rows r * r_cols r * L /\
  (forall k vi row col l, in_group feq toint r groups k vi -> cell_at r vi row col -> 0 <= l < L ->
     nth_error d (Z.to_nat ((row * r_cols r + col) * L + l)) =
     Some (if us k || negb (feqD (toD (r_nodata r)) def) then conv (table_value recls k l def) else r_nodata r)) /\
  (forall row col l, inside r row col -> 0 <= l < L ->
     (forall k vi, in_group feq toint r groups k vi -> ~ cell_at r vi row col) ->
     nth_error d (Z.to_nat ((row * r_cols r + col) * L + l)) = Some (r_nodata r)).
Proof.
  intros OD NE NR PL FL def. pose proof C as (CR & CC & _).
  set (f := fun ks : Z * subset D => set_sdata (snd ks) (s_lyrs (snd ks)) (s_data (snd ks)) (s_data2 (snd ks)) (us (fst ks))).
  destruct (comb_marked feqD toD ofD f) with (lyrs := L) (recls := recls) (def := def) (W := fun k (gi : Z) l => conv (table_value recls k l def))
    as (d & E & LD & A & B).
  - intros ks. split; reflexivity.
  - exact PL.
  - intros k i l gi _ _ _ _ Bl. unfold comb_value. destruct recls as [|kv t] eqn:ER; [congruence|]. rewrite <- ER. unfold recls_value. cbn [obind].
    rewrite OD. cbn [obind]. do 3 f_equal. unfold table_value. destruct (zfind recls k) as [row|]; [|reflexivity].
    destruct (nth_error row (Z.to_nat l)) as [x|] eqn:N.
    + assert (Z.to_nat l < length row)%nat by (apply nth_error_Some; congruence).
      destruct (l <? Z.of_nat (length row)) eqn:Q; [|lia]. apply nth_error_nth, N.
    + apply nth_error_None in N. destruct (l <? Z.of_nat (length row)) eqn:Q; [lia|reflexivity].
  - exists d. split; [|split; [exact LD|split; [|exact B]]].
    + unfold PrepareCombSubsetData. change (mark us subs) with (map (fun ks => (fst ks, f ks)) subs).
      destruct (map (fun ks => (fst ks, f ks)) subs) as [|x y] eqn:EM; [destruct subs; [congruence|discriminate]|]. rewrite <- EM in *. clear x y EM.
      rewrite (recls_layers_same L recls (-1) FL ltac:(lia)).
      assert (SL : subset_layers false (map (fun ks => (fst ks, f ks)) subs) (-1) = Some (-1)).
      { assert (G : forall l, incl l subs -> subset_layers false (map (fun ks => (fst ks, f ks)) l) (-1) = Some (-1)); [|apply G, incl_refl].
        induction l as [|[k s] l IH]; intros I; [reflexivity|]. cbn [map subset_layers fst].
        assert (I' : incl l subs) by (intros z Hz; apply I; right; exact Hz).
        destruct (negb (s_usable (f (k, s)))); [apply IH, I'|]. rewrite andb_false_r. replace (-1 <? 0) with true by lia.
        assert (Hk : In (k, s) subs) by (apply I; left; reflexivity). apply shape in Hk. destruct Hk as [-> _].
        destruct (final_fields (D := D) r ix (cells k all)) as (_ & _ & Ly & _). cbn zeta in Ly.
        unfold f. cbn [snd set_sdata s_lyrs]. rewrite Ly. apply IH, I'. }
      replace (match recls with [] => true | _ => false end) with false by (destruct recls; [congruence|reflexivity]). rewrite SL.
      replace (match recls with [] => -1 | _ => L end) with L by (destruct recls; [congruence|reflexivity]).
      replace ((-1 <? 0) && (0 <? L)) with true by lia. replace (L <? 0) with false by lia. fold def.
      unfold init1d. replace (r_rows r * r_cols r * L <=? 0) with false by nia. rewrite E. reflexivity.
    + intros k vi row col l I Hc Bl. rewrite (A k vi row col l I Hc Bl). unfold active, direct, f. cbn [snd fst set_sdata s_usable].
      destruct (us k); cbn [negb andb orb]; reflexivity.
Qed.

(** Own values for the usable subsets, the default for the others. *)
Lemma combine_marked (feqD : D -> D -> bool) (toD : T -> D) (ofD : D -> outcome T) (dNODATA : D) (us : Z -> bool) (default dv : D) (dfv : T) :
  (forall v, ofD (toD v) = Ok v) -> (exists k s, In (k, s) subs /\ us k = true) ->
  let def := if feqD default dNODATA then dv else default in
  ofD def = Ok dfv ->
  exists d,
  PrepareCombSubsetData feqD toint toD ofD dNODATA r dv (mark us (map (fun ks => (fst ks, own1 r toD ks)) subs)) false true [] default
   = Ok (Some (d, r_rows r * r_cols r, 1)) /\
  Z.of_nat (length d) = r_rows r * r_cols r /\
  (forall k vi row col, in_group feq toint r groups k vi -> cell_at r vi row col -> exists v, read_cell r vi 1 = Ok v /\
     nth_error d (Z.to_nat (row * r_cols r + col)) =
     Some (if us k then v else if feqD (toD (r_nodata r)) def then r_nodata r else dfv)) /\
  (forall row col, inside r row col ->
     (forall k vi, in_group feq toint r groups k vi -> ~ cell_at r vi row col) ->
     nth_error d (Z.to_nat (row * r_cols r + col)) = Some (r_nodata r)).
Proof.
  intros RT (k1 & s1 & H1 & U1) def DV. pose proof C as (CR & CC & CL & _).
  set (f := fun ks : Z * subset D => set_sdata (own1 r toD ks) 1 (s_data (own1 r toD ks)) (s_data2 (own1 r toD ks)) (us (fst ks))).
  assert (EM : mark us (map (fun ks => (fst ks, own1 r toD ks)) subs) = map (fun ks => (fst ks, f ks)) subs).
  { unfold mark. rewrite map_map. reflexivity. }
  destruct (comb_marked feqD toD ofD f) with (lyrs := 1) (recls := @nil (Z * list D)) (def := def)
    (W := fun k gi (l : Z) => if us k then rv r gi 0 else dfv) as (d & E & LD & A & B).
  - intros ks. split; reflexivity.
  - lia.
  - intros k i l gi Hk Ac Ei Bi Bl. unfold comb_value, direct. unfold active, direct in Ac. unfold f in *. cbn [fst set_sdata s_usable s_data s_data2] in *.
    destruct (us k) eqn:U; cbn [negb andb orb] in *.
    + replace (1 <? 1) with false by lia. cbn [andb]. rewrite Z.eqb_refl. unfold own1. cbn [set_sdata s_data isnull negb andb deref obind snd].
      unfold glob. destruct (final_fields (D := D) r ix (cells k all)) as (_ & _ & _ & _ & _ & Gl & _). cbn zeta in Gl. rewrite Gl.
      rewrite (aget_ok _ i (toD (rv r gi 0)) Bi); [|rewrite nth_error_map, Ei; reflexivity]. cbn [obind]. rewrite RT. reflexivity.
    + rewrite Ac. rewrite DV. reflexivity.
  - rewrite Z.mul_1_r in *. exists d. rewrite EM. split; [|split; [exact LD|split]].
    + unfold PrepareCombSubsetData.
      destruct (map (fun ks => (fst ks, f ks)) subs) as [|x y] eqn:EX; [destruct subs; [destruct H1|discriminate]|]. rewrite <- EX in *. clear x y EX.
      cbn [recls_layers].
      assert (SL : subset_layers true (map (fun ks => (fst ks, f ks)) subs) (-1) = Some 1).
      { assert (G : forall l acc, (acc = 1 \/ acc = -1 /\ exists s, In (k1, s) l) -> subset_layers true (map (fun ks => (fst ks, f ks)) l) acc = Some 1).
        - induction l as [|[k s] l IH]; intros acc Ha; [destruct Ha as [->|[_ (s & [])]]; reflexivity|]. cbn [map subset_layers fst].
          change (s_usable (f (k, s))) with (us k). change (isnull (s_data (f (k, s)))) with false. change (s_lyrs (f (k, s))) with 1. cbn [andb].
          destruct (us k) eqn:U; cbn [negb].
          + destruct (acc <? 0) eqn:Q; [apply IH; auto|]. destruct (1 =? acc) eqn:Q1; [apply IH; left; lia|lia].
          + apply IH. destruct Ha as [Ha|[Ha (s' & [H|H])]]; [auto| |right; split; [exact Ha|eauto]]. congruence.
        - apply G. right. split; [reflexivity|eauto]. }
      rewrite SL. replace ((1 <? 0) && (0 <? -1)) with false by lia. replace (1 <? 0) with false by lia. fold def. rewrite Z.mul_1_r.
      unfold init1d. replace (r_rows r * r_cols r <=? 0) with false by nia. rewrite E. reflexivity.
    + intros k vi row col I Hc. pose proof (proj1 I) as Bv. exists (rv r vi 0). split; [apply (rv_ok r ix C vi 0 Bv); lia|].
      specialize (A k vi row col 0 I Hc ltac:(lia)). replace (row * r_cols r + col) with ((row * r_cols r + col) * 1 + 0) by lia. rewrite A.
      unfold active, direct, f. cbn [fst set_sdata s_usable]. destruct (us k); cbn [negb andb orb]; [reflexivity|].
      destruct (feqD (toD (r_nodata r)) def); reflexivity.
    + intros row col I N. specialize (B row col 0 I ltac:(lia) N). replace (row * r_cols r + col) with ((row * r_cols r + col) * 1 + 0) by lia. exact B.
Qed.

(** * Output of the single windows, original values *)
Section Windows.
Variable feqD : D -> D -> bool.
Variable toD : T -> D.
Variable ofD : D -> outcome T.
Variable dNODATA : D.
Hypothesis REG : r_is2d r = (1 <? r_nlyrs r).

Notation win s := ((s_erow s - s_srow s + 1) * (s_ecol s - s_scol s + 1)).

(** Contents of the array prepared for subset [k]. *)
Definition sub_writes (k : Z) : list (Z * T) :=
  map (fun vl => (lidx r ix (final (cells k all)) (nth (Z.to_nat (fst vl)) (cells k all) 0) * r_nlyrs r + snd vl,
                  rv r (nth (Z.to_nat (fst vl)) (cells k all) 0) (snd vl)))
      (cell_layers (Z.of_nat (length (cells k all))) (r_nlyrs r)).
Definition sub_array (k : Z) : list T :=
  fold_left put (sub_writes k) (repeat (r_nodata r) (Z.to_nat (win (final (cells k all)) * r_nlyrs r))).

Lemma lidx_range k vi : In vi (cells k all) ->
  let s := final (cells k all) in
  s_srow s <= prow r ix vi <= s_erow s /\ s_scol s <= pcol r ix vi <= s_ecol s /\ 0 <= lidx r ix s vi < win s.
Proof.
  intros H s. assert (NE : cells k all <> []) by (intros X; rewrite X in H; destruct H).
  destruct (final_fields (D := D) r ix (cells k all)) as (_ & _ & _ & _ & _ & _ & W1 & W2 & W3 & W4 & _). cbn zeta in *. fold s in W1, W2, W3, W4.
  destruct (wsub_box (D := D) r ix (cells k all) NE) as (B & _). cbn zeta in B. destruct (B vi H) as [B1 B2].
  rewrite <- W1, <- W2 in B1. rewrite <- W3, <- W4 in B2. split; [exact B1|]. split; [exact B2|]. unfold lidx. nia.
Qed.

Lemma win_pos k : cells k all <> [] -> 0 < win (final (cells k all)).
Proof.
  intros NE. destruct (cells k all) as [|a c] eqn:E; [congruence|].
  assert (H : In a (cells k all)) by (rewrite E; left; reflexivity). pose proof (lidx_range k a H) as X. cbn zeta in X. rewrite E in X. lia.
Qed.

Lemma sub_writes_range k : Forall (fun iv => 0 <= fst iv < win (final (cells k all)) * r_nlyrs r) (sub_writes k).
Proof.
  apply Forall_forall. intros iv H. apply in_map_iff in H. destruct H as (vl & <- & Hv). apply cell_layers_In in Hv. cbn [fst].
  assert (In (nth (Z.to_nat (fst vl)) (cells k all) 0) (cells k all)) as Hi by (apply nth_In; lia).
  destruct (lidx_range k _ Hi) as (_ & _ & B). cbn zeta in B. nia.
Qed.

Lemma sub_writes_NoDup k : NoDup (map fst (sub_writes k)).
Proof.
  unfold sub_writes. rewrite map_map. cbn [fst]. apply NoDup_map_in; [apply NoDup_cell_layers|].
  intros [i l] [j m] Hi Hj E. apply cell_layers_In in Hi, Hj. cbn [fst snd] in *.
  apply layer_pos_inj in E; [|lia|lia]. destruct E as [E ->]. f_equal.
  assert (S : StronglySorted Z.lt (map (lidx r ix (final (cells k all))) (cells k all))).
  { apply (li_sorted feq toint r ix groups C k). intros vi Hv. apply lidx_range, Hv. }
  assert (Z.to_nat i = Z.to_nat j); [|lia].
  apply (sorted_nth_inj _ _ _ (lidx r ix (final (cells k all)) (nth (Z.to_nat i) (cells k all) 0)) S).
  - rewrite nth_error_map, (nth_error_nth' (cells k all) 0) by lia. reflexivity.
  - rewrite nth_error_map, (nth_error_nth' (cells k all) 0) by lia. cbn [option_map]. congruence.
Qed.

Lemma prepare_window (us : bool) k default dv : cells k all <> [] ->
  let s := set_sdata (final (cells k all)) (-1) None None us in
  PrepareSubsetData feqD toint ofD dNODATA r dv k s true true [] default
  = Ok (Some (sub_array k, win s * r_nlyrs r, r_nlyrs r)).
Proof.
  intros NE s. pose proof C as (CR & CC & CL & CN & CI & CS & _).
  destruct (final_fields (D := D) r ix (cells k all)) as (_ & N & _ & _ & _ & G & W1 & W2 & W3 & W4 & _ & L2). cbn zeta in *.
  unfold PrepareSubsetData. cbn [recls_layers]. replace (0 <? -1) with false by lia. replace (r_nlyrs r <? 0) with false by lia.
  assert (N' : s_n s = Z.of_nat (length (cells k all))) by exact N.
  assert (G' : s_global s = Some (cells k all)) by exact G.
  assert (L' : s_lidx s = Some (li_of r ix (wsub r ix (cells k all)) (cells k all))) by exact L2.
  assert (WE : win s = win (final (cells k all))) by reflexivity. rewrite WE.
  clearbody s. rewrite N', G', L'. cbn [deref obind].
  pose proof (win_pos k NE) as WP. unfold init1d. match goal with |- context [if ?b then None else _] => replace b with false by nia end.
  unfold sub_array, sub_writes. rewrite (try_writes _ (fun vl => (lidx r ix (final (cells k all)) (nth (Z.to_nat (fst vl)) (cells k all) 0) * r_nlyrs r + snd vl,
                  rv r (nth (Z.to_nat (fst vl)) (cells k all) 0) (snd vl)))).
  - reflexivity.
  - intros vl Hv. pose proof Hv as Hv0. apply cell_layers_In in Hv. destruct Hv as [Hv Hl].
    set (gi := nth (Z.to_nat (fst vl)) (cells k all) 0).
    assert (Hn : nth_error (cells k all) (Z.to_nat (fst vl)) = Some gi) by (apply nth_error_nth'; lia).
    assert (Hi : In gi (cells k all)) by (eapply nth_error_In; exact Hn).
    assert (Bg : 0 <= gi < r_ncells r) by (apply cells_In in Hi; apply Hi).
    rewrite (aget_ok _ (fst vl) (lidx r ix (final (cells k all)) gi)); [|lia|].
    2:{ unfold li_of. rewrite nth_error_map, Hn. cbn [option_map]. unfold lidx. rewrite W1, W3, W4. reflexivity. }
    cbn [obind]. rewrite (aget_ok _ (fst vl) gi); [|lia|exact Hn]. cbn [obind].
    assert (SV : sub_value toint ofD r k s (r_nlyrs r) true [] (if feqD default dNODATA then dv else default)
         (fst vl) (snd vl) gi = Ok (Some (rv r gi (snd vl)))).
    { unfold sub_value. pose proof (rv_ok r ix C gi (snd vl) Bg Hl) as RV. unfold read_cell in RV. unfold storage in CS. rewrite REG in RV, CS.
      destruct (1 <? r_nlyrs r) eqn:M.
      - destruct CS as (d & Ed & _). rewrite Ed in *. cbn [andb isnull negb deref obind] in *.
        replace (snd vl + 1 - 1) with (snd vl) in RV by lia.
        destruct (aget d gi) as [c| |]; try discriminate. cbn [obind] in *. rewrite RV. reflexivity.
      - destruct CS as (NL & d & Ed & _). rewrite Ed in *. rewrite NL. cbn [andb]. rewrite Z.eqb_refl. cbn [andb isnull negb deref obind] in *.
        rewrite RV. reflexivity. }
    rewrite SV. cbn [obind fst]. split; [reflexivity|].
    pose proof (sub_writes_range k) as F. rewrite Forall_forall in F. rewrite repeat_length.
    specialize (F (lidx r ix (final (cells k all)) gi * r_nlyrs r + snd vl, rv r gi (snd vl))). cbn [fst] in F.
    rewrite Z2Nat.id by nia. apply F. unfold sub_writes. apply in_map_iff. exists vl. auto.
Qed.

Lemma window_in k gi l : In gi (cells k all) -> 0 <= l < r_nlyrs r ->
  nth_error (sub_array k) (Z.to_nat (lidx r ix (final (cells k all)) gi * r_nlyrs r + l)) = Some (rv r gi l).
Proof.
  intros H B. unfold sub_array. apply puts_in.
  - apply sub_writes_NoDup.
  - assert (NE : cells k all <> []) by (intros X; rewrite X in H; destruct H). pose proof (win_pos k NE).
    rewrite repeat_length, Z2Nat.id by nia. apply sub_writes_range.
  - destruct (In_nth _ _ 0 H) as (i & Li & Ei). unfold sub_writes. apply in_map_iff. exists (Z.of_nat i, l). cbn [fst snd].
    rewrite Nat2Z.id, Ei. split; [reflexivity|]. apply cell_layers_In. cbn [fst snd]. lia.
Qed.

Lemma window_out k p l : 0 <= p < win (final (cells k all)) -> 0 <= l < r_nlyrs r ->
  (forall gi, In gi (cells k all) -> lidx r ix (final (cells k all)) gi <> p) ->
  nth_error (sub_array k) (Z.to_nat (p * r_nlyrs r + l)) = Some (r_nodata r).
Proof.
  intros Bp Bl N. unfold sub_array. rewrite puts_other.
  - rewrite nth_error_repeat; [reflexivity|]. nia.
  - nia.
  - intros H. unfold sub_writes in H. rewrite map_map in H. apply in_map_iff in H. destruct H as (vl & E & Hv). cbn [fst] in E.
    apply cell_layers_In in Hv. apply layer_pos_inj in E; [|lia|lia]. destruct E as [E _]. revert E. apply N. apply nth_In. lia.
  - eapply Forall_impl; [|apply sub_writes_range]. cbn. intros; lia.
Qed.

Lemma sub_array_length k : cells k all <> [] -> Z.of_nat (length (sub_array k)) = win (final (cells k all)) * r_nlyrs r.
Proof. intros NE. unfold sub_array. rewrite puts_length, repeat_length. pose proof (win_pos k NE). pose proof C as (_ & _ & CL & _). nia. Qed.

(** The files requested for subset [k]. *)
Definition window_layer (k l : Z) : list T :=
  map (fun p => nth (Z.to_nat (p * r_nlyrs r + l)) (sub_array k) (r_nodata r)) (zseq (win (final (cells k all)))).
Definition win_req (k l : Z) : request T :=
  mkReq k (if r_nlyrs r =? 1 then 0 else l + 1) (GetHeader (final (cells k all)) (geo_of r)) (win (final (cells k all))) (r_nlyrs r) (window_layer k l).
Definition win_reqs (k : Z) : list (request T) := map (win_req k) (zseq (r_nlyrs r)).

Lemma layer_of_ok k l : cells k all <> [] -> 0 <= l < r_nlyrs r ->
  layer_of (sub_array k) (win (final (cells k all))) (r_nlyrs r) l = Ok (window_layer k l).
Proof.
  intros NE B. unfold layer_of, window_layer. apply omapm_ok. intros p Hp. apply zseq_In in Hp.
  apply aget_ok; [nia|]. apply nth_error_nth'. pose proof (sub_array_length k NE). nia.
Qed.

Variable write_ok : list (request T) -> request T -> bool.

(** Requests in order until one fails. *)
Fixpoint run_reqs (log : list (request T)) (b : bool) (qs : list (request T)) : list (request T) * bool :=
  match qs with
  | [] => (log, b)
  | q :: qs => if b then run_reqs (log ++ [q]) (write_ok log q) qs else (log, b)
  end.

Lemma run_false qs log : run_reqs log false qs = (log, false).
Proof. destruct qs; reflexivity. Qed.

Lemma run_app a : forall b log fl, run_reqs log fl (a ++ b) = run_reqs (fst (run_reqs log fl a)) (snd (run_reqs log fl a)) b.
Proof.
  induction a as [|q a IH]; intros b log fl; cbn [app run_reqs fst snd]; [reflexivity|]. destruct fl; [apply IH|].
  cbn [fst snd]. rewrite run_false. reflexivity.
Qed.

Lemma fullsize_ok k log : cells k all <> [] ->
  OutputFullsize write_ok log k (GetHeader (final (cells k all)) (geo_of r)) (win (final (cells k all))) (r_nlyrs r) (sub_array k) (win (final (cells k all))) (r_nlyrs r)
  = Ok (run_reqs log true (win_reqs k)).
Proof.
  intros NE. pose proof C as (_ & _ & CL & _). unfold OutputFullsize. replace (r_nlyrs r <? 1) with false by lia.
  destruct (r_nlyrs r =? 1) eqn:E1.
  - assert (N1 : r_nlyrs r = 1) by lia. unfold win_reqs. rewrite N1. change (zseq 1) with [0]. cbn [map run_reqs].
    unfold win_req. rewrite N1. change (1 =? 1) with true.
    assert (EL : window_layer k 0 = sub_array k).
    { unfold window_layer. rewrite N1. pose proof (sub_array_length k NE) as L. rewrite N1, Z.mul_1_r in L.
      rewrite <- L. rewrite <- (map_nth_zseq (sub_array k) (r_nodata r)) at 2. apply map_ext. intros p. f_equal. lia. }
    rewrite EL. reflexivity.
  - assert (G : forall ls, (forall l, In l ls -> 0 <= l < r_nlyrs r) -> forall lg fl,
      ofold (fun (st : list (request T) * bool) l =>
        let* d := layer_of (sub_array k) (win (final (cells k all))) (r_nlyrs r) l in
        if snd st then let q := mkReq k (l + 1) (GetHeader (final (cells k all)) (geo_of r)) (win (final (cells k all))) (r_nlyrs r) d in
          Ok (fst st ++ [q], write_ok (fst st) q) else Ok st) ls (lg, fl) = Ok (run_reqs lg fl (map (win_req k) ls))).
    { induction ls as [|l ls IH]; intros HB lg fl; cbn [ofold map run_reqs]; [reflexivity|].
      rewrite layer_of_ok; [|exact NE|apply HB; left; reflexivity]. cbn [obind fst snd].
      destruct fl; cbn [obind].
      - unfold win_req at 1 2. rewrite E1. apply IH. intros; apply HB; right; assumption.
      - rewrite IH by (intros; apply HB; right; assumption). rewrite run_false. reflexivity. }
    apply G. intros l Hl. apply zseq_In in Hl. exact Hl.
Qed.

Definition all_reqs (us : Z -> bool) (l : list (Z * subset D)) : list (request T) :=
  flat_map (fun ks => if us (fst ks) then win_reqs (fst ks) else []) l.

Lemma output_windows (us : Z -> bool) default dv : subs <> [] ->
  OutputSubsetToFile feqD toint toD ofD dNODATA write_ok r dv (mark us subs) true false [] default
  = Ok (run_reqs [] true (all_reqs us subs)).
Proof.
  intros NE. pose proof C as (_ & _ & CL & _ & _ & CS & _). unfold OutputSubsetToFile. rewrite (storage_valid r _ CS). cbn [negb].
  destruct (mark us subs) as [|x y] eqn:EM; [destruct subs; [congruence|discriminate]|]. rewrite <- EM. clear x y EM.
  set (step := fun st ks => _).
  assert (G : forall l, incl l subs -> forall lg fl, ofold step (mark us l) (lg, fl) = Ok (run_reqs lg fl (all_reqs us l))).
  2:{ apply G, incl_refl. }
  induction l as [|[k s] l IH]; intros I lg fl; [reflexivity|].
  assert (I' : incl l subs) by (intros z Hz; apply I; right; exact Hz).
  assert (Hk : In (k, s) subs) by (apply I; left; reflexivity). apply shape in Hk. destruct Hk as [-> Hne].
  unfold mark. cbn [map ofold]. fold (mark us l). cbn [fst snd]. unfold step at 1. cbn [fst snd].
  destruct (final_fields (D := D) r ix (cells k all)) as (_ & N & Ly & D1 & D2 & _). cbn zeta in *. rewrite Ly, D1, D2.
  unfold all_reqs. cbn [flat_map fst]. fold (all_reqs us l).
  pose proof (prepare_window (us k) k default dv Hne) as PW. cbn zeta in PW.
  assert (HU : s_usable (set_sdata (final (cells k all)) (-1) None None (us k)) = us k) by reflexivity.
  assert (HW : win (set_sdata (final (cells k all)) (-1) None None (us k)) = win (final (cells k all))) by reflexivity.
  assert (HH : GetHeader (set_sdata (final (cells k all)) (-1) None None (us k)) (geo_of r) = GetHeader (final (cells k all)) (geo_of r)) by reflexivity.
  set (s' := set_sdata (final (cells k all)) (-1) None None (us k)) in *. clearbody s'. rewrite HW in PW. rewrite HU, HH.
  destruct (us k) eqn:U; cbn [negb].
  - rewrite PW. cbn [obind].
    replace (r_nlyrs r =? 0) with false by lia. rewrite run_app. rewrite Z.quot_mul by lia.
    pose proof (fullsize_ok k lg Hne) as FO. destruct fl.
    + rewrite FO. cbn [obind]. destruct (run_reqs lg true (win_reqs k)) as [lg' fl']. apply (IH I').
    + rewrite run_false. cbn [obind fst snd]. apply (IH I').
  - cbn [obind app]. apply (IH I').
Qed.

Lemma run_prefix qs : forall log fl, exists pre post, qs = pre ++ post /\ fst (run_reqs log fl qs) = log ++ pre /\
  (snd (run_reqs log fl qs) = true -> post = [] /\ fl = true).
Proof.
  induction qs as [|q qs IH]; intros log fl; cbn [run_reqs].
  - exists [], []. rewrite !app_nil_r. cbn [fst snd]. split; [reflexivity|]. split; [reflexivity|]. intros H. split; [reflexivity|exact H].
  - destruct fl; cbn [fst snd].
    + destruct (IH (log ++ [q]) (write_ok log q)) as (pre & post & -> & E & F). exists (q :: pre), post. split; [reflexivity|].
      rewrite E, <- app_assoc. split; [reflexivity|]. intros H. split; [apply F, H|reflexivity].
    + exists [], (q :: qs). rewrite app_nil_r. split; [reflexivity|]. split; [reflexivity|discriminate].
Qed.

Lemma run_all qs : (forall l q, write_ok l q = true) -> forall log, run_reqs log true qs = (log ++ qs, true).
Proof.
  intros W. induction qs as [|q qs IH]; intros log; cbn [run_reqs]; [rewrite app_nil_r; reflexivity|].
  rewrite W, IH, <- app_assoc. reflexivity.
Qed.

Lemma win_req_spec k l : In (k, final (cells k all)) subs -> 0 <= l < r_nlyrs r ->
  let s := final (cells k all) in let q := win_req k l in
  Z.of_nat (length (q_data q)) = win s /\
  forall row col, 0 <= row <= s_erow s - s_srow s -> 0 <= col <= s_ecol s - s_scol s ->
   (forall vi, in_group feq toint r groups k vi -> cell_at r vi (row + s_srow s) (col + s_scol s) ->
      exists v, read_cell r vi (l + 1) = Ok v /\ nth_error (q_data q) (Z.to_nat (row * (s_ecol s - s_scol s + 1) + col)) = Some v) /\
   ((forall vi, in_group feq toint r groups k vi -> ~ cell_at r vi (row + s_srow s) (col + s_scol s)) ->
      nth_error (q_data q) (Z.to_nat (row * (s_ecol s - s_scol s + 1) + col)) = Some (r_nodata r)).
Proof.
  intros Hin Bl s q. apply shape in Hin. destruct Hin as [_ NE]. pose proof (win_pos k NE) as WP. fold s in WP.
  unfold q, win_req. cbn [q_data]. unfold window_layer. fold s. rewrite map_length, zseq_length. split; [lia|].
  intros row col Br Bc. assert (BW : 0 <= row * (s_ecol s - s_scol s + 1) + col < win s) by nia.
  rewrite nth_error_map, zseq_nth by exact BW. cbn [option_map]. split.
  - intros vi I Hc. pose proof (proj1 I) as Bv. exists (rv r vi l). split; [apply (rv_ok r ix C vi l Bv Bl)|].
    pose proof (proj2 (cells_In feq toint r groups k vi) I) as Hi. pose proof (window_in k vi l Hi Bl) as W. fold s in W.
    apply (cell_at_p r ix C) in Hc; [|exact Bv]. destruct Hc as [Er Ec].
    replace (lidx r ix s vi) with (row * (s_ecol s - s_scol s + 1) + col) in W by (unfold lidx; rewrite <- Er, <- Ec; ring).
    f_equal. apply nth_error_nth, W.
  - intros N. f_equal. apply nth_error_nth. apply window_out; [exact BW|exact Bl|]. fold s. intros gi Hg E.
    pose proof Hg as I. apply cells_In in I. apply (N gi I). pose proof (proj1 I) as Bg. apply (cell_at_p r ix C); [exact Bg|].
    destruct (lidx_range k gi Hg) as (B1 & B2 & _). fold s in B1, B2. unfold lidx in E.
    assert (prow r ix gi - s_srow s = row /\ pcol r ix gi - s_scol s = col) by (apply (layer_pos_inj (s_ecol s - s_scol s + 1)); lia). lia.
Qed.
End Windows.
End Use.
