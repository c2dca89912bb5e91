(** Proofs about subsets: combining. *)
From Coq Require Import ZArith QArith List Bool Lia Sorted ZifyBool ZifyNat Permutation.
From Verif Require Import Base ListLib RasterModel RasterSpec RasterProofs RasterProofs2 CoordModel SubsetModel SubsetSpec SubsetProofs SubsetProofs2.
Import ListNotations.
Open Scope Z_scope.
Open Scope outcome_scope.

Lemma NoDup_flat_map {A B} (f : A -> list B) l : NoDup l -> (forall x, In x l -> NoDup (f x)) ->
  (forall x y b, In x l -> In y l -> In b (f x) -> In b (f y) -> x = y) -> NoDup (flat_map f l).
Proof.
  induction l as [|a l IH]; intros N H1 H2; cbn [flat_map]; [constructor|]. inversion N; subst.
  assert (G : NoDup (flat_map f l)).
  { apply IH; auto; [intros; apply H1; right; assumption|intros x y b Hx Hy; apply H2; right; assumption]. }
  pose proof (H1 a (or_introl eq_refl)) as Na.
  assert (Dj : forall b, In b (f a) -> In b (flat_map f l) -> False).
  { intros b Hb Hl. apply in_flat_map in Hl. destruct Hl as (y & Hy & Hb').
    assert (a = y) by (apply (H2 a y b); [left; reflexivity|right; exact Hy|exact Hb|exact Hb']). subst. contradiction. }
  clear - Na G Dj. induction (f a) as [|b fa IH]; cbn [app]; [exact G|]. inversion Na; subst. constructor.
  - rewrite in_app_iff. intros [?|?]; [contradiction|]. apply (Dj b); [left; reflexivity|assumption].
  - apply IH; [assumption|]. intros c Hc. apply Dj. right. exact Hc.
Qed.

Lemma NoDup_map_in {A B} (f : A -> B) l : NoDup l -> (forall x y, In x l -> In y l -> f x = f y -> x = y) -> NoDup (map f l).
Proof.
  induction l as [|a l IH]; intros N H; cbn [map]; [constructor|]. inversion N; subst. constructor.
  - intros Hin. apply in_map_iff in Hin. destruct Hin as (y & E & Hy).
    assert (a = y) by (apply H; [left; reflexivity|right; exact Hy|congruence]). subst. contradiction.
  - apply IH; auto. intros x y Hx Hy. apply H; right; assumption.
Qed.

Lemma NoDup_zseq n : NoDup (zseq n).
Proof.
  assert (S := StronglySorted_zseq n). induction S as [|a l S IH F]; constructor; auto.
  intros H. rewrite Forall_forall in F. specialize (F a H). lia.
Qed.

Lemma NoDup_cell_layers n lyrs : NoDup (cell_layers n lyrs).
Proof.
  apply NoDup_flat_map; [apply NoDup_zseq| |].
  - intros x _. apply NoDup_map_in; [apply NoDup_zseq|]. intros a b _ _ E. congruence.
  - intros x y b _ _ Hx Hy. apply in_map_iff in Hx, Hy. destruct Hx as (? & <- & _), Hy as (? & E & _). congruence.
Qed.

Lemma layer_pos_inj L a b x y : 0 <= x < L -> 0 <= y < L -> a * L + x = b * L + y -> a = b /\ x = y.
Proof. intros. assert (a = b) by nia. subst. lia. Qed.

Section Comb.
Context {T D : Type}.
Variable feqD : D -> D -> bool.
Variable toint : T -> option Z.
Variable toD : T -> D.
Variable ofD : D -> outcome T.
Variable dNODATA : D.
Variable r : raster T.
Variable ix : list Z.
Hypothesis C : compact r ix.

Variable subs : list (Z * subset D).
Definition glob (s : subset D) : list Z := match s_global s with Some g => g | None => [] end.

(** The cells of the subsets are stored cells, and no cell is in two subsets. *)
Definition disjoint_subs : Prop :=
  NoDup (map fst subs) /\
  (forall ks, In ks subs -> exists g, s_global (snd ks) = Some g /\ s_n (snd ks) = Z.of_nat (length g) /\
     NoDup g /\ Forall (fun vi => 0 <= vi < r_ncells r) g) /\
  (forall ks ks' vi, In ks subs -> In ks' subs -> In vi (glob (snd ks)) -> In vi (glob (snd ks')) -> ks = ks').
Hypothesis DJ : disjoint_subs.

Variables (lyrs : Z) (out_origin include_nodata : bool) (recls : list (Z * list D)) (default : D).
Hypothesis HL : 0 <= lyrs.
Variable V : Z * subset D -> Z -> Z -> T.

Definition direct (s : subset D) : bool := negb (s_usable s) && negb (feqD (toD (r_nodata r)) default).
Definition active (s : subset D) : bool := s_usable s || direct s.

Hypothesis HV : forall ks vi l gi, In ks subs -> active (snd ks) = true -> 0 <= vi < s_n (snd ks) -> 0 <= l < lyrs ->
  nth_error (glob (snd ks)) (Z.to_nat vi) = Some gi ->
  comb_value toint ofD r (fst ks) (snd ks) (direct (snd ks)) lyrs out_origin recls default vi l gi = Ok (Some (V ks vi l)).

(** Place of stored cell [gi] in the combined array. *)
Definition target (gi : Z) : Z := if include_nodata then nth (Z.to_nat gi) ix 0 else gi.
Definition gncells : Z := if include_nodata then r_rows r * r_cols r else r_ncells r.

Definition wr (ks : Z * subset D) (vl : Z * Z) : Z * T :=
  (target (nth (Z.to_nat (fst vl)) (glob (snd ks)) 0) * lyrs + snd vl, V ks (fst vl) (snd vl)).
Definition writes (ks : Z * subset D) : list (Z * T) :=
  if active (snd ks) then map (wr ks) (cell_layers (s_n (snd ks)) lyrs) else [].

Lemma target_range gi : 0 <= gi < r_ncells r -> 0 <= target gi < gncells.
Proof.
  intros B. unfold target, gncells. destruct include_nodata; [|exact B].
  apply (ix_at r ix C gi B).
Qed.

Lemma target_inj a b : 0 <= a < r_ncells r -> 0 <= b < r_ncells r -> target a = target b -> a = b.
Proof.
  intros A B. unfold target. destruct include_nodata; [|auto]. intros E.
  pose proof (n_ix r ix C) as N. pose proof C as (_ & _ & _ & _ & _ & _ & _ & _ & _ & SO & _).
  assert (Z.to_nat a = Z.to_nat b); [|lia].
  apply (sorted_nth_inj ix _ _ (nth (Z.to_nat a) ix 0)); [exact SO| |rewrite E]; apply nth_error_nth'; lia.
Qed.

Lemma glob_at ks vi : In ks subs -> 0 <= vi < s_n (snd ks) ->
  nth_error (glob (snd ks)) (Z.to_nat vi) = Some (nth (Z.to_nat vi) (glob (snd ks)) 0) /\
  0 <= nth (Z.to_nat vi) (glob (snd ks)) 0 < r_ncells r /\ In (nth (Z.to_nat vi) (glob (snd ks)) 0) (glob (snd ks)).
Proof.
  intros H B. destruct DJ as (_ & G & _). destruct (G ks H) as (g & E & N & _ & F). unfold glob. rewrite E.
  assert (L : (Z.to_nat vi < length g)%nat) by lia. split; [apply nth_error_nth', L|].
  pose proof (nth_In g 0 L) as I. rewrite Forall_forall in F. split; [apply F, I|exact I].
Qed.

Lemma wr_range ks vl : In ks subs -> In vl (cell_layers (s_n (snd ks)) lyrs) -> 0 <= fst (wr ks vl) < gncells * lyrs.
Proof.
  intros H Hv. apply cell_layers_In in Hv. destruct Hv as [Hv Hl]. destruct (glob_at ks (fst vl) H Hv) as (_ & B & _).
  pose proof (target_range _ B). unfold wr. cbn [fst]. nia.
Qed.

Lemma comb_one ks a : In ks subs -> Z.of_nat (length a) = gncells * lyrs ->
  comb_subset feqD toint toD ofD r lyrs out_origin include_nodata recls default (Some a) ks
  = Ok (Some (fold_left put (writes ks) a)).
Proof.
  intros H L. unfold comb_subset, writes. fold (direct (snd ks)).
  destruct (active (snd ks)) eqn:A; unfold active in A.
  - replace (negb (s_usable (snd ks)) && negb (direct (snd ks))) with false by lia.
    rewrite (try_writes _ (wr ks)); [reflexivity|]. intros vl Hvl. rewrite L. split; [|apply wr_range; assumption].
    apply cell_layers_In in Hvl. destruct Hvl as [Hv Hl]. destruct (glob_at ks (fst vl) H Hv) as (E & B & I).
    destruct DJ as (_ & G & _). destruct (G ks H) as (g & Eg & N & _ & F).
    rewrite Eg. cbn [deref obind].
    assert (Q : glob (snd ks) = g) by (unfold glob; rewrite Eg; reflexivity). rewrite Q in E, B, I.
    rewrite (aget_ok g _ _ (proj1 Hv) E). cbn [obind].
    pose proof C as (_ & _ & _ & _ & _ & _ & _ & CP & _). rewrite CP. cbn [deref obind].
    destruct (ix_at r ix C _ B) as [IX _]. rewrite IX. cbn [obind].
    rewrite (HV ks (fst vl) (snd vl) (nth (Z.to_nat (fst vl)) g 0)); auto; [|rewrite Q; exact E].
    cbn [obind]. unfold wr, target. rewrite Q. reflexivity.
  - replace (negb (s_usable (snd ks)) && negb (direct (snd ks))) with true by lia. reflexivity.
Qed.

Lemma comb_all l : incl l subs -> forall a, Z.of_nat (length a) = gncells * lyrs ->
  ofold (comb_subset feqD toint toD ofD r lyrs out_origin include_nodata recls default) l (Some a)
  = Ok (Some (fold_left put (flat_map writes l) a)).
Proof.
  induction l as [|ks l IH]; intros I a L; cbn [ofold flat_map]; [reflexivity|].
  rewrite comb_one; [|apply I; left; reflexivity|exact L]. cbn [obind].
  rewrite fold_left_app. apply IH; [intros x Hx; apply I; right; exact Hx|]. rewrite puts_length. exact L.
Qed.

Lemma writes_NoDup : NoDup (map fst (flat_map writes subs)).
Proof.
  rewrite flat_map_concat_map, concat_map, map_map, <- flat_map_concat_map.
  assert (NS : NoDup subs).
  { destruct DJ as (N & _). clear - N. induction subs as [|x l IH]; [constructor|]. cbn in N. inversion N; subst. constructor; auto.
    intros H. apply H1. apply in_map, H. }
  apply NoDup_flat_map; [exact NS| |].
  - intros ks H. unfold writes. destruct (active (snd ks)); [|constructor]. rewrite map_map.
    apply NoDup_map_in; [apply NoDup_cell_layers|]. intros [v l] [v' l'] Hx Hy E.
    apply cell_layers_In in Hx, Hy. cbn [fst snd wr] in *. destruct Hx as [Hv Hl], Hy as [Hv' Hl'].
    apply layer_pos_inj in E; [|lia|lia]. destruct E as [E ->]. f_equal.
    destruct (glob_at ks v H Hv) as (E1 & B1 & _). destruct (glob_at ks v' H Hv') as (E2 & B2 & _).
    apply target_inj in E; [|assumption|assumption]. rewrite E in E1.
    destruct DJ as (_ & G & _). destruct (G ks H) as (g & Eg & N & ND & F).
    assert (Q : glob (snd ks) = g) by (unfold glob; rewrite Eg; reflexivity). rewrite Q in E1, E2.
    assert (Z.to_nat v = Z.to_nat v'); [|lia]. apply (proj1 (NoDup_nth_error g) ND); [lia|congruence].
  - intros ks ks' b H H' Hb Hb'. unfold writes in Hb, Hb'.
    destruct (active (snd ks)); [|destruct Hb]. destruct (active (snd ks')); [|destruct Hb'].
    rewrite map_map in Hb, Hb'. apply in_map_iff in Hb, Hb'. destruct Hb as (x & <- & Hx), Hb' as (y & E & Hy).
    apply cell_layers_In in Hx, Hy. cbn [fst snd wr] in *. destruct Hx as [Hv Hl], Hy as [Hv' Hl'].
    apply layer_pos_inj in E; [|lia|lia]. destruct E as [E _].
    destruct (glob_at ks _ H Hv) as (_ & B1 & I1). destruct (glob_at ks' _ H' Hv') as (_ & B2 & I2).
    apply target_inj in E; [|assumption|assumption]. rewrite E in I2.
    destruct DJ as (_ & _ & J). apply (J ks ks' _ H H' I1 I2).
Qed.

Lemma writes_range a : Z.of_nat (length a) = gncells * lyrs -> Forall (fun iv : Z * T => 0 <= fst iv < Z.of_nat (length (a : list T))) (flat_map writes subs).
Proof.
  intros L. apply Forall_forall. intros iv H. apply in_flat_map in H. destruct H as (ks & Hk & H). unfold writes in H.
  destruct (active (snd ks)); [|destruct H]. apply in_map_iff in H. destruct H as (vl & <- & Hv). rewrite L. apply wr_range; assumption.
Qed.

(** What the combined array holds. *)
Lemma comb_result a : a = repeat (r_nodata r) (Z.to_nat (gncells * lyrs)) -> 0 <= gncells -> exists d,
  ofold (comb_subset feqD toint toD ofD r lyrs out_origin include_nodata recls default) subs (Some a) = Ok (Some d) /\
  Z.of_nat (length d) = gncells * lyrs /\
  (forall ks vi l, In ks subs -> active (snd ks) = true -> 0 <= vi < s_n (snd ks) -> 0 <= l < lyrs ->
     nth_error d (Z.to_nat (target (nth (Z.to_nat vi) (glob (snd ks)) 0) * lyrs + l)) = Some (V ks vi l)) /\
  (forall p l, 0 <= p < gncells -> 0 <= l < lyrs ->
     (forall ks gi, In ks subs -> active (snd ks) = true -> In gi (glob (snd ks)) -> target gi <> p) ->
     nth_error d (Z.to_nat (p * lyrs + l)) = Some (r_nodata r)).
Proof.
  intros Ea G. assert (L : Z.of_nat (length a) = gncells * lyrs) by (rewrite Ea, repeat_length; nia).
  exists (fold_left put (flat_map writes subs) a). split; [apply comb_all; [apply incl_refl|exact L]|].
  split; [rewrite puts_length; exact L|]. split.
  - intros ks vi l H A B Bl. apply puts_in; [apply writes_NoDup|apply writes_range, L|].
    apply in_flat_map. exists ks. split; [exact H|]. unfold writes. rewrite A. apply in_map_iff. exists (vi, l).
    split; [reflexivity|]. apply cell_layers_In. cbn. auto.
  - intros p l B Bl N. rewrite puts_other.
    + rewrite Ea. apply nth_error_repeat. nia.
    + nia.
    + intros H. apply in_map_iff in H. destruct H as (iv & E & H). apply in_flat_map in H. destruct H as (ks & Hk & H).
      unfold writes in H. destruct (active (snd ks)) eqn:A; [|destruct H]. apply in_map_iff in H. destruct H as (vl & <- & Hv).
      apply cell_layers_In in Hv. destruct Hv as [Hv Hl]. cbn [fst snd wr] in E. apply layer_pos_inj in E; [|lia|lia].
      destruct E as [E _]. destruct (glob_at ks _ Hk Hv) as (_ & _ & I). apply (N ks _ Hk A I E).
    + eapply Forall_impl; [|apply (writes_range a L)]. cbn. intros; lia.
Qed.
End Comb.
