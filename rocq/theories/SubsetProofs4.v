(** Proofs about subsets: splitting, combining and writing built subsets. *)
From Coq Require Import ZArith QArith List Bool Lia Sorted ZifyBool ZifyNat Permutation.
From Verif Require Import Base ListLib RasterModel RasterSpec RasterProofs RasterProofs2 CoordModel SubsetModel SubsetSpec SubsetProofs SubsetProofs2 SubsetProofs3.
Import ListNotations.
Open Scope Z_scope.
Open Scope outcome_scope.

Lemma sorted_NoDup l : StronglySorted Z.lt l -> NoDup l.
Proof.
  intros S. induction S as [|a l S IH F]; constructor; auto.
  intros H. rewrite Forall_forall in F. specialize (F a H). lia.
Qed.

Section Built.
Context {T D : Type}.
Variable feq : T -> T -> bool.
Variable toint : T -> option Z.
Variable r : raster T.
Variable ix : list Z.
Variable groups : list (Z * Z).
Hypothesis C : compact r ix.

Notation cells := (cells feq toint r groups).
Notation all := (all r).
Notation prow := (prow r ix).
Notation pcol := (pcol r ix).
Notation final := (final (D := D) r ix).
Notation wsub := (wsub (D := D) r ix).

Variable subs : list (Z * subset D).
Hypothesis KS : ksorted subs.
Hypothesis ZF : forall k, zfind subs k = opt final (cells k all).

Lemma subs_shape k s : In (k, s) subs <-> s = final (cells k all) /\ cells k all <> [].
Proof.
  split.
  - intros H. apply In_zfind in H; [|exact KS]. rewrite ZF in H.
    destruct (cells k all) eqn:E; [discriminate|]. cbn [opt] in H. split; [congruence|discriminate].
  - intros [-> N]. apply zfind_In. rewrite ZF. destruct (cells k all); [congruence|reflexivity].
Qed.

Lemma subs_NoDup : NoDup (map fst subs).
Proof.
  apply sorted_NoDup, KS.
Qed.

Lemma disjoint_map (f : Z * subset D -> subset D) :
  (forall ks, s_global (f ks) = s_global (snd ks) /\ s_n (f ks) = s_n (snd ks)) ->
  disjoint_subs r (map (fun ks => (fst ks, f ks)) subs).
Proof.
  intros Hf. split; [|split].
  - rewrite map_map. cbn [fst]. apply subs_NoDup.
  - intros ks H. apply in_map_iff in H. destruct H as ([k s] & <- & H). cbn [snd]. destruct (Hf (k, s)) as [-> ->]. cbn [snd].
    apply subs_shape in H. destruct H as [-> N]. destruct (final_fields (D := D) r ix (cells k all)) as (_ & E & _ & _ & _ & G & _). cbn zeta in *.
    exists (cells k all). split; [exact G|]. split; [exact E|]. split; [|apply cells_range].
    apply sorted_NoDup, cells_sorted.
  - intros ks ks' vi H H' I I'. apply in_map_iff in H, H'. destruct H as ([k s] & <- & H), H' as ([k' s'] & <- & H').
    cbn [snd fst] in *. unfold glob in I, I'. destruct (Hf (k, s)) as [E _], (Hf (k', s')) as [E' _]. rewrite E in I. rewrite E' in I'. cbn [snd] in I, I'.
    pose proof H as G. pose proof H' as G'. apply subs_shape in G, G'. destruct G as [-> _], G' as [-> _].
    destruct (final_fields (D := D) r ix (cells k all)) as (_ & _ & _ & _ & _ & Q & _).
    destruct (final_fields (D := D) r ix (cells k' all)) as (_ & _ & _ & _ & _ & Q' & _). cbn zeta in *.
    rewrite Q in I. rewrite Q' in I'. apply cells_In in I, I'. pose proof (in_group_fun _ _ _ _ _ _ _ I I'). subst. reflexivity.
Qed.

(** Reading the raster and the subsets. *)
Definition rv (gi l : Z) : T := match read_cell r gi (l + 1) with Ok v => v | _ => r_nodata r end.

Lemma rv_ok gi l : 0 <= gi < r_ncells r -> 0 <= l < r_nlyrs r -> read_cell r gi (l + 1) = Ok (rv gi l).
Proof.
  clear KS ZF subs toint feq groups. intros B Bl. pose proof C as (_ & _ & _ & _ & _ & CS & _).
  destruct (read_storage r (r_ncells r) gi (l + 1) CS B ltac:(unfold layer_ok; lia)) as [v E]. unfold rv. rewrite E. reflexivity.
Qed.

Variable toD : T -> D.
Variable dNODATA : D.

Definition own1 (ks : Z * subset D) : subset D :=
  set_sdata (snd ks) 1 (Some (map (fun gi => toD (rv gi 0)) (glob (snd ks)))) (s_data2 (snd ks)) true.

Lemma split_values_ok : split_values toD dNODATA r subs = Ok (map (fun ks => (fst ks, own1 ks)) subs).
Proof.
  unfold split_values. apply omapm_ok. intros [k s] H. apply subs_shape in H. destruct H as [-> N]. cbn [fst snd].
  set (c := cells k all) in *.
  destruct (final_fields (D := D) r ix c) as (U & E & _ & D1 & D2 & G & _). cbn zeta in *.
  rewrite G. cbn [deref obind].
  assert (F : Forall (fun vi => 0 <= vi < r_ncells r) c) by apply cells_range. rewrite Forall_forall in F.
  rewrite (omapm_ok _ (fun vi => rv vi 0)). 2:{ intros vi Hv. pose proof C as (_ & _ & L & _). apply (rv_ok vi 0); [apply F, Hv|lia]. }
  cbn [obind]. unfold SetData. rewrite Z.eqb_refl. cbn [negb]. rewrite D1, E. unfold init1d.
  assert (LC : (0 < length c)%nat) by (destruct c; [congruence|cbn; lia]).
  destruct (Z.of_nat (length c) <=? 0) eqn:E0; [lia|].
  rewrite (ofold_fill _ (fun i => toD (rv (nth (Z.to_nat i) c 0) 0))).
  - cbn [obind fst]. unfold own1. cbn [snd]. unfold glob. rewrite G. do 4 f_equal.
    apply (map_nth_f (fun gi => toD (rv gi 0))).
  - rewrite repeat_length. lia.
  - intros b i Bi _. rewrite (aget_ok _ i (rv (nth (Z.to_nat i) c 0) 0)); [reflexivity|lia|].
    rewrite nth_error_map, (nth_error_nth' c 0) by lia. reflexivity.
Qed.

Variable feqD : D -> D -> bool.
Variable ofD : D -> outcome T.
Hypothesis RT : forall v, ofD (toD v) = Ok v.

Lemma inside_target gi p row col : 0 <= gi < r_ncells r -> nth_error ix (Z.to_nat gi) = Some p -> p = row * r_cols r + col ->
  target ix true gi = row * r_cols r + col.
Proof. intros _ E ->. unfold target. apply nth_error_nth. exact E. Qed.

(** Each grid cell either belongs to a subset or reads NoData. *)
Hypothesis FIT : zones_fit feq toint r.

Lemma cell_cases row col : inside r row col ->
  (exists gi k i, 0 <= gi < r_ncells r /\ nth_error ix (Z.to_nat gi) = Some (row * r_cols r + col) /\
     In (k, final (cells k all)) subs /\ 0 <= i < Z.of_nat (length (cells k all)) /\ nth (Z.to_nat i) (cells k all) 0 = gi /\
     (exists v, GetValue r row col 1 = Ok v /\ feq v (r_nodata r) = false) /\
     (forall lyr, layer_ok r lyr -> GetValue r row col lyr = read_cell r gi lyr)) \/
  ((forall k gi, In gi (cells k all) -> nth (Z.to_nat gi) ix 0 <> row * r_cols r + col) /\
   (exists v1, GetValue r row col 1 = Ok v1 /\
      (feq v1 (r_nodata r) = true \/ forall lyr, layer_ok r lyr -> GetValue r row col lyr = Ok (r_nodata r)))).
Proof.
  intros I. pose proof C as (CR & CC & CL & CN & CI & CS & CK & CP & CQ & CO & CF).
  assert (L1 : layer_ok r 1) by (unfold layer_ok; lia).
  destruct (GetPosition_compact r ix row col C I) as [(gi & G & B & E)|[G N]].
  - assert (AL : forall lyr, layer_ok r lyr -> GetValue r row col lyr = read_cell r gi lyr).
    { intros lyr Ly. destruct (GetValue_compact r ix row col lyr C I Ly) as [(m & G' & _ & _ & V)|(G' & _)]; [|exfalso; assert (gi = -1) by congruence; lia].
      assert (m = gi) by congruence. subst. exact V. }
    destruct (read_storage r (r_ncells r) gi 1 CS B L1) as [v RV].
    destruct (feq v (r_nodata r)) eqn:F.
    + right. split.
      * intros k gi' H E'. apply cells_In in H. destruct H as (B' & v' & z & R' & F' & _).
        assert (gi = gi').
        { assert (Z.to_nat gi = Z.to_nat gi'); [|lia]. apply (sorted_nth_inj ix _ _ (row * r_cols r + col)); [exact CO|exact E|].
          rewrite <- E'. apply nth_error_nth'. lia. }
        subst. congruence.
      * exists v. rewrite AL by exact L1. auto.
    + left. destruct (toint v) as [z|] eqn:TZ; [|exfalso; exact (FIT gi v B RV F TZ)].
      assert (IG : in_group feq toint r groups (group_of groups z) gi).
      { split; [exact B|]. exists v, z. repeat split; auto. unfold group_of. destruct (zfind groups z); auto. }
      apply (cells_In feq toint r groups) in IG. destruct (In_nth _ _ 0 IG) as (i & Li & Ei).
      exists gi, (group_of groups z), (Z.of_nat i). rewrite Nat2Z.id. split; [exact B|]. split; [exact E|].
      split; [apply subs_shape; split; [reflexivity|intros X; rewrite X in IG; destruct IG]|].
      split; [lia|]. split; [exact Ei|]. split; [exists v; rewrite AL by exact L1; auto|exact AL].
  - right. split.
    + intros k gi H E. apply cells_In in H. destruct H as (B & _). apply N. rewrite <- E. apply nth_In. lia.
    + assert (AL : forall lyr, layer_ok r lyr -> GetValue r row col lyr = Ok (r_nodata r)).
      { intros lyr Ly. destruct (GetValue_compact r ix row col lyr C I Ly) as [(m & G' & B' & _)|(_ & _ & V)]; [exfalso; assert (m = -1) by congruence; lia|exact V]. }
      exists (r_nodata r). split; [apply AL, L1|]. right. exact AL.
Qed.

(** A subset list with the same cells, all usable, whose cells show the raster. *)
Section Combine.
Variable f : Z * subset D -> subset D.
Hypothesis Hf : forall ks, s_global (f ks) = s_global (snd ks) /\ s_n (f ks) = s_n (snd ks).
Hypothesis Hu : forall ks, s_usable (f ks) = true.
Variable lyrs : Z.
Hypothesis HL : 1 <= lyrs <= r_nlyrs r.
Hypothesis Hl : forall ks, s_lyrs (f ks) = lyrs.
Hypothesis Hn : forall ks, isnull (s_data (f ks)) && isnull (s_data2 (f ks)) = false.
Hypothesis Hv : forall k vi l, In (k, final (cells k all)) subs -> 0 <= vi < Z.of_nat (length (cells k all)) -> 0 <= l < lyrs ->
  comb_value toint ofD r k (f (k, final (cells k all))) false lyrs false [] dNODATA vi l (nth (Z.to_nat vi) (cells k all) 0)
  = Ok (Some (rv (nth (Z.to_nat vi) (cells k all) 0) l)).
Notation subs' := (map (fun ks => (fst ks, f ks)) subs).

Lemma comb_value_default ks s direct default default' vi l gi : direct = false ->
  comb_value toint ofD r ks s direct lyrs false [] default vi l gi = comb_value toint ofD r ks s direct lyrs false [] default' vi l gi.
Proof. intros ->. reflexivity. Qed.

Lemma subset_layers_all : forall l acc, incl l subs' -> (acc < 0 \/ acc = lyrs) ->
  subset_layers true l acc = Some (match l with [] => acc | _ => lyrs end).
Proof.
  induction l as [|[k s] l IH]; intros acc I A; [reflexivity|]. cbn [subset_layers].
  assert (Hin : In (k, s) subs') by (apply I; left; reflexivity). apply in_map_iff in Hin. destruct Hin as (ks & E & _). injection E as _ <-.
  rewrite Hu, Hn, Hl. cbn [negb andb].
  assert (I' : incl l subs') by (intros x Hx; apply I; right; exact Hx).
  destruct (acc <? 0) eqn:N.
  - rewrite IH by (auto || lia). destruct l; reflexivity.
  - destruct (lyrs =? acc) eqn:Q; [|lia]. rewrite IH by (auto || lia). destruct l; [f_equal; lia|reflexivity].
Qed.

Lemma combined default dv : subs <> [] -> exists d,
  PrepareCombSubsetData feqD toint toD ofD dNODATA r dv subs' false true [] default = Ok (Some (d, r_rows r * r_cols r * lyrs, lyrs)) /\
  Z.of_nat (length d) = r_rows r * r_cols r * lyrs /\
  forall row col l, inside r row col -> 0 <= l < lyrs -> exists v1 v,
    GetValue r row col 1 = Ok v1 /\ GetValue r row col (l + 1) = Ok v /\
    nth_error d (Z.to_nat ((row * r_cols r + col) * lyrs + l)) = Some (if feq v1 (r_nodata r) then r_nodata r else v).
Proof.
  intros NE. pose proof C as (CR & CC & CL & CN & CI & CS & CK & CP & CQ & CO & CF).
  set (def := if feqD default dNODATA then dv else default).
  set (V := fun (ks : Z * subset D) vi l => rv (nth (Z.to_nat vi) (glob (snd ks)) 0) l).
  assert (GL : forall k s, In (k, s) subs' -> glob s = cells k all /\ s_n s = Z.of_nat (length (cells k all)) /\ In (k, final (cells k all)) subs /\ s = f (k, final (cells k all))).
  { intros k s H. apply in_map_iff in H. destruct H as ([k' s'] & E & H). cbn [fst] in E. injection E as -> <-.
    pose proof H as H0. apply subs_shape in H. destruct H as [-> _]. destruct (Hf (k, final (cells k all))) as [E1 E2].
    destruct (final_fields (D := D) r ix (cells k all)) as (_ & N & _ & _ & _ & G & _). cbn zeta in *.
    unfold glob. rewrite E1, E2. cbn [snd]. rewrite G. auto. }
  destruct (comb_result feqD toint toD ofD r ix C subs' (disjoint_map f Hf) lyrs false true [] def ltac:(lia) V) with
    (a := repeat (r_nodata r) (Z.to_nat (r_rows r * r_cols r * lyrs))) as (d & E & L & A & B).
  - intros [k s] vi l gi H _ Bv Bl Eg. cbn [fst snd] in *. destruct (GL k s H) as (G & N & Hk & ->).
    unfold direct. rewrite Hu. cbn [negb andb]. rewrite (comb_value_default _ _ _ _ dNODATA) by reflexivity.
    rewrite G in Eg. rewrite <- (nth_error_nth _ _ 0 Eg). unfold V. cbn [snd]. rewrite G. apply Hv; [exact Hk|lia|exact Bl].
  - reflexivity.
  - unfold gncells. nia.
  - exists d. split; [|split; [exact L|]].
    + unfold PrepareCombSubsetData. cbn [recls_layers].
      rewrite (subset_layers_all subs' (-1) (incl_refl _) ltac:(lia)).
      destruct subs as [|x sl] eqn:Es; [congruence|]. cbn [map].
      change ((fst x, f x) :: map (fun ks => (fst ks, f ks)) sl) with (map (fun ks => (fst ks, f ks)) (x :: sl)).
      cbn [andb]. replace ((lyrs <? 0) && (0 <? -1)) with false by lia. replace (lyrs <? 0) with false by lia.
      fold def. unfold init1d. replace (r_rows r * r_cols r * lyrs <=? 0) with false by nia. rewrite E. cbn [obind]. reflexivity.
    + intros row col l I Bl. assert (Ly : layer_ok r (l + 1)) by (unfold layer_ok; lia).
      unfold target in A, B.
      destruct (cell_cases row col I) as [(gi & k & i & Bg & Eg & Hin & Bi & Ei & (v1 & G1 & F1) & AL)|(N & v1 & G1 & Z1)].
      * exists v1, (rv gi l). split; [exact G1|]. split; [rewrite AL by exact Ly; apply rv_ok; lia|]. rewrite F1.
        assert (Hin' : In (k, f (k, final (cells k all))) subs') by (apply in_map_iff; exists (k, final (cells k all)); auto).
        destruct (GL _ _ Hin') as (G & Nn & _ & _).
        specialize (A (k, f (k, final (cells k all))) i l Hin'). cbn [snd] in A.
        rewrite G in A. rewrite Nn in A. unfold active in A. rewrite Hu in A. specialize (A eq_refl Bi Bl).
        rewrite Ei in A. rewrite (nth_error_nth _ _ 0 Eg) in A. rewrite A. unfold V. cbn [snd]. rewrite G, Ei. reflexivity.
      * assert (exists v, GetValue r row col (l + 1) = Ok v /\ (feq v1 (r_nodata r) = true \/ v = r_nodata r)) as (v & Gv & Zv).
        { destruct Z1 as [Z1|Z1].
          - destruct (GetValue_total r row col (l + 1)) as [v Gv]; [right; left; exists ix; exact C|]. exists v. auto.
          - exists (r_nodata r). split; [apply Z1, Ly|auto]. }
        exists v1, v. split; [exact G1|]. split; [exact Gv|].
        replace (if feq v1 (r_nodata r) then r_nodata r else v) with (r_nodata r) by (destruct (feq v1 (r_nodata r)); [reflexivity|destruct Zv; congruence]).
        apply B; [|exact Bl|].
        -- unfold gncells. unfold inside in I. nia.
        -- intros [k s] gi H _ Hg. cbn [snd] in Hg. destruct (GL k s H) as (G & _). rewrite G in Hg. apply (N k), Hg.
Qed.
End Combine.

Lemma combine_values default dv : subs <> [] -> exists d,
  PrepareCombSubsetData feqD toint toD ofD dNODATA r dv (map (fun ks => (fst ks, own1 ks)) subs) false true [] default
    = Ok (Some (d, r_rows r * r_cols r, 1)) /\
  Z.of_nat (length d) = r_rows r * r_cols r /\
  forall row col, inside r row col -> exists v, GetValue r row col 1 = Ok v /\
    nth_error d (Z.to_nat (row * r_cols r + col)) = Some (if feq v (r_nodata r) then r_nodata r else v).
Proof.
  intros NE. pose proof C as (CR & CC & CL & _).
  destruct (combined own1) with (lyrs := 1) (default := default) (dv := dv) as (d & E & L & G); auto.
  - lia.
  - intros k vi l Hin Bv Bl. assert (l = 0) by lia. subst l. unfold comb_value, own1. cbn [negb andb set_sdata s_data s_data2 snd isnull].
    replace (1 <? 1) with false by lia. rewrite Z.eqb_refl. cbn [andb negb deref obind].
    unfold glob. destruct (final_fields (D := D) r ix (cells k all)) as (_ & _ & _ & _ & _ & Gl & _). cbn zeta in Gl. rewrite Gl.
    rewrite (aget_ok _ vi (toD (rv (nth (Z.to_nat vi) (cells k all) 0) 0))); [|lia|].
    + cbn [obind]. rewrite RT. reflexivity.
    + rewrite nth_error_map, (nth_error_nth' (cells k all) 0) by lia. reflexivity.
  - exists d. rewrite Z.mul_1_r in *. split; [exact E|]. split; [exact L|]. intros row col I.
    destruct (G row col 0 I ltac:(lia)) as (v1 & v & G1 & G2 & N). change (0 + 1) with 1 in G2. rewrite G1 in G2. injection G2 as <-.
    exists v1. split; [exact G1|]. replace (row * r_cols r + col) with ((row * r_cols r + col) * 1 + 0) by lia. exact N.
Qed.

(** Layers. *)
Definition own2 (ks : Z * subset D) : subset D :=
  set_sdata (snd ks) (r_nlyrs r) (s_data (snd ks))
    (Some (map (fun gi => map (fun l => toD (rv gi l)) (zseq (r_nlyrs r))) (glob (snd ks)))) true.

Lemma upd_at {A} (o : list A) i x y : nth_error o i = Some y -> nth_error (upd o i x) i = Some x.
Proof.
  intros H. rewrite upd_nth, Nat.eqb_refl. assert (i < length o)%nat by (apply nth_error_Some; congruence).
  destruct (i <? length o)%nat eqn:E; [reflexivity|lia].
Qed.

Lemma upd_mid {A} (l t : list A) n x y : length l = n -> upd (l ++ x :: t) n y = l ++ y :: t.
Proof. intros <-. induction l as [|z l IHl]; cbn [app length upd]; [reflexivity|]. f_equal. exact IHl. Qed.

(** Filling row [i] element by element. *)
Lemma fill_row {A} (h : Z -> outcome A) (w : Z -> A) n o i row : 0 <= i ->
  nth_error o (Z.to_nat i) = Some row -> Z.of_nat (length row) = n -> (forall j, 0 <= j < n -> h j = Ok (w j)) ->
  ofold (fun o j => let* v := h j in let* row := aget o i in let* row' := aset row j v in aset o i row') (zseq n) o
  = Ok (upd o (Z.to_nat i) (map w (zseq n))).
Proof.
  intros I E L H.
  assert (IL : (Z.to_nat i < length o)%nat) by (apply nth_error_Some; congruence).
  assert (G : forall l row0 rowr, Forall (fun j => 0 <= j < n) l ->
     ofold (fun row j => aset row j (w j)) l row0 = Ok rowr ->
     forall o0, length o0 = length o -> nth_error o0 (Z.to_nat i) = Some row0 ->
     ofold (fun o j => let* v := h j in let* row := aget o i in let* row' := aset row j v in aset o i row') l o0
     = Ok (upd o0 (Z.to_nat i) rowr)).
  { induction l as [|j l IH]; intros row0 rowr F Hr o0 Lo Eo; cbn [ofold] in *.
    - injection Hr as <-. rewrite upd_same by exact Eo. reflexivity.
    - inversion F; subst. rewrite H by assumption. cbn [obind]. rewrite (aget_ok o0 i row0 I Eo). cbn [obind].
      destruct (aset row0 j (w j)) as [row1| |] eqn:Er; try discriminate. cbn [obind] in *.
      unfold aset at 1. destruct (i <? 0) eqn:E0; [lia|]. destruct (Z.to_nat i <? length o0)%nat eqn:E1; [|lia]. cbn [obind].
      rewrite (IH row1 rowr); [|assumption|exact Hr|rewrite upd_length; exact Lo|eapply upd_at; exact Eo].
      rewrite upd_repeat_map. reflexivity. }
  apply (G (zseq n) row); auto.
  - apply Forall_forall. intros j Hj. apply zseq_In in Hj. exact Hj.
  - apply ofold_fill; [exact L|]. intros; reflexivity.
Qed.

Lemma split_layers_ok : split_layers toD dNODATA r subs = Ok (map (fun ks => (fst ks, own2 ks)) subs).
Proof.
  unfold split_layers. apply omapm_ok. intros [k s] H. apply subs_shape in H. destruct H as [-> N]. cbn [fst snd].
  set (c := cells k all) in *.
  destruct (final_fields (D := D) r ix c) as (U & E & _ & D1 & D2 & G & _). cbn zeta in *.
  rewrite G. cbn [deref obind].
  assert (F : Forall (fun vi => 0 <= vi < r_ncells r) c) by apply cells_range. rewrite Forall_forall in F.
  rewrite (omapm_ok _ (fun vi => map (fun l => rv vi l) (zseq (r_nlyrs r)))).
  2:{ intros vi Hv. apply omapm_ok. intros l Hl. apply zseq_In in Hl. apply rv_ok; [apply F, Hv|exact Hl]. }
  cbn [obind]. unfold Set2DData. rewrite Z.eqb_refl. cbn [negb]. rewrite D2, E, Nat2Z.id.
  set (step := fun o i => _). set (o0 := repeat _ _).
  assert (Z : forall m, 0 <= m <= Z.of_nat (length c) ->
    ofold step (zseq m) o0 = Ok (map (fun i => map (fun l => toD (rv (nth (Z.to_nat i) c 0) l)) (zseq (r_nlyrs r))) (zseq m)
       ++ repeat (repeat dNODATA (Z.to_nat (r_nlyrs r))) (length c - Z.to_nat m))).
  { intros m [M0 M1]. revert M1. pattern m. apply natlike_ind; [| |exact M0].
    - intros _. rewrite zseq_0 by lia. cbn [ofold map app]. unfold o0. rewrite Nat.sub_0_r. reflexivity.
    - intros x X0 IH X1. unfold Z.succ. rewrite zseq_S by lia. rewrite ofold_app, IH by lia. cbn [obind ofold].
      unfold step at 1.
      rewrite (aget_ok _ x (map (fun l => rv (nth (Z.to_nat x) c 0) l) (zseq (r_nlyrs r)))); [|lia|].
      2:{ rewrite nth_error_map, (nth_error_nth' c 0) by lia. reflexivity. }
      cbn [obind].
      set (pre := map (fun i => map (fun l => toD (rv (nth (Z.to_nat i) c 0) l)) (zseq (r_nlyrs r))) (zseq x)).
      assert (LP : length pre = Z.to_nat x) by (unfold pre; rewrite map_length, zseq_length; reflexivity).
      replace (length c - Z.to_nat x)%nat with (S (length c - Z.to_nat (x + 1)))%nat by lia. cbn [repeat].
      pose proof (fill_row (fun j => let* v := aget (map (fun l => rv (nth (Z.to_nat x) c 0) l) (zseq (r_nlyrs r))) j in Ok (toD v))
        (fun l => toD (rv (nth (Z.to_nat x) c 0) l)) (r_nlyrs r)
        (pre ++ repeat dNODATA (Z.to_nat (r_nlyrs r)) :: repeat (repeat dNODATA (Z.to_nat (r_nlyrs r))) (length c - Z.to_nat (x + 1)))
        x (repeat dNODATA (Z.to_nat (r_nlyrs r))) X0) as FR.
      pose proof C as (_ & _ & CL & _).
      match type of FR with _ -> _ -> _ -> ofold ?st _ _ = _ =>
        assert (SE : forall o, ofold (fun o j => let* v := aget (map (fun l => rv (nth (Z.to_nat x) c 0) l) (zseq (r_nlyrs r))) j in
             let* row := aget o x in let* row' := aset row j (toD v) in aset o x row') (zseq (r_nlyrs r)) o = ofold st (zseq (r_nlyrs r)) o) end.
      { generalize (zseq (r_nlyrs r)) at 2 4. induction l as [|j l IHl]; intros o; cbn [ofold]; [reflexivity|].
        destruct (aget (map (fun l0 => rv (nth (Z.to_nat x) c 0) l0) (zseq (r_nlyrs r))) j); cbn [obind]; auto.
        destruct (aget o x); cbn [obind]; auto. destruct (aset _ j _); cbn [obind]; auto.
        destruct (aset o x _); cbn [obind]; auto. }
      rewrite SE, FR; clear SE FR.
      + cbn [obind]. rewrite map_app. cbn [map]. f_equal. fold pre.
        rewrite <- app_assoc. cbn [app]. apply upd_mid. exact LP.
      + rewrite nth_error_app2 by lia. rewrite LP, Nat.sub_diag. reflexivity.
      + rewrite repeat_length. lia.
      + intros j Bj. rewrite (aget_ok _ j (rv (nth (Z.to_nat x) c 0) j)); [reflexivity|lia|].
        rewrite nth_error_map, zseq_nth by lia. reflexivity. }
  rewrite Z by lia. cbn [obind fst]. rewrite Nat2Z.id, Nat.sub_diag. cbn [repeat]. rewrite app_nil_r.
  unfold own2. cbn [snd]. unfold glob. rewrite G. do 4 f_equal.
  apply (map_nth_f (fun gi => map (fun l => toD (rv gi l)) (zseq (r_nlyrs r)))).
Qed.

Lemma combine_layers default dv : subs <> [] -> 1 < r_nlyrs r -> exists d,
  PrepareCombSubsetData feqD toint toD ofD dNODATA r dv (map (fun ks => (fst ks, own2 ks)) subs) false true [] default
    = Ok (Some (d, r_rows r * r_cols r * r_nlyrs r, r_nlyrs r)) /\
  Z.of_nat (length d) = r_rows r * r_cols r * r_nlyrs r /\
  forall row col l, inside r row col -> 0 <= l < r_nlyrs r -> exists v1 v,
    GetValue r row col 1 = Ok v1 /\ GetValue r row col (l + 1) = Ok v /\
    nth_error d (Z.to_nat ((row * r_cols r + col) * r_nlyrs r + l)) = Some (if feq v1 (r_nodata r) then r_nodata r else v).
Proof.
  intros NE NL. apply (combined own2); auto; [lia| |].
  - intros [k s]. unfold own2. cbn [set_sdata s_data s_data2 isnull]. apply andb_false_r.
  - intros k vi l Hin Bv Bl. unfold comb_value, own2. cbn [negb andb set_sdata s_data s_data2 snd isnull].
    replace (1 <? r_nlyrs r) with true by lia. cbn [andb negb deref obind].
    unfold glob. destruct (final_fields (D := D) r ix (cells k all)) as (_ & _ & _ & _ & _ & Gl & _). cbn zeta in Gl. rewrite Gl.
    rewrite (aget_ok _ vi (map (fun l => toD (rv (nth (Z.to_nat vi) (cells k all) 0) l)) (zseq (r_nlyrs r)))); [|lia|].
    + cbn [obind]. rewrite (aget_ok _ l (toD (rv (nth (Z.to_nat vi) (cells k all) 0) l))); [|lia|].
      * cbn [obind]. rewrite RT. reflexivity.
      * rewrite nth_error_map, zseq_nth by lia. reflexivity.
    + rewrite nth_error_map, (nth_error_nth' (cells k all) 0) by lia. reflexivity.
Qed.
End Built.
