(** Proofs about subsets: what BuildSubSet returns, combining, writing. *)
From Coq Require Import ZArith QArith List Bool Lia Sorted ZifyBool ZifyNat Permutation.
From Verif Require Import Base ListLib RasterModel RasterSpec RasterProofs RasterProofs2 CoordModel SubsetModel SubsetSpec SubsetProofs.
Import ListNotations.
Open Scope Z_scope.
Open Scope outcome_scope.

Lemma filter_sorted f : forall l, StronglySorted Z.lt l -> StronglySorted Z.lt (filter f l).
Proof. intros. apply StronglySorted_filter; assumption. Qed.

Section Built.
Context {T D : Type}.
Variable feq : T -> T -> bool.
Variable toint : T -> option Z.
Variable r : raster T.
Variable ix : list Z.
Variable groups : list (Z * Z).
Hypothesis C : compact r ix.
Hypothesis FIT : zones_fit feq toint r.

Notation cells := (cells feq toint r groups).
Notation all := (all r).
Notation prow := (prow r ix).
Notation pcol := (pcol r ix).
Notation final := (final (D := D) r ix).
Notation wsub := (wsub (D := D) r ix).

Lemma Build_compact ord : exists subs : list (Z * subset D),
  BuildSubSet feq toint ord r [] groups = Ok (r, subs, true) /\
  ksorted subs /\ (forall k, zfind subs k = opt final (cells k all)).
Proof.
  destruct (build_all (D := D) feq toint r ix groups C FIT) as (subs & E & S & F).
  exists subs. split; [|split; assumption]. pose proof C as (_ & _ & _ & _ & _ & CS & _ & CP & CQ & _).
  unfold BuildSubSet. rewrite (storage_valid r _ CS). cbn [negb]. rewrite CP, CQ. cbn [isnull orb obind fst snd negb]. rewrite CP.
  unfold SubsetProofs.all in E.
  destruct (ofold (build_step feq toint r ix groups) (zseq (r_ncells r)) ([], [])) as [st| |]; cbn [obind] in *; try discriminate.
  destruct (omapm (fill_global (snd st)) (fst st)) as [s1| |]; cbn [obind] in *; try discriminate.
  destruct (omapm (fill_local r ix) s1) as [s2| |]; cbn [obind] in *; try discriminate. injection E as ->. reflexivity.
Qed.

Lemma final_fields c : let s := final c in
  s_usable s = true /\ s_n s = Z.of_nat (length c) /\ s_lyrs s = -1 /\ s_data s = None /\ s_data2 s = None /\
  s_global s = Some c /\ s_srow s = s_srow (wsub c) /\ s_erow s = s_erow (wsub c) /\
  s_scol s = s_scol (wsub c) /\ s_ecol s = s_ecol (wsub c) /\
  s_lpos s = Some (lp_of r ix (wsub c) c) /\ s_lidx s = Some (li_of r ix (wsub c) c).
Proof.
  destruct (wsub_fields (D := D) r ix c) as (A & B & E & F & G). cbn zeta in *.
  unfold SubsetProofs.final, with_global, set_local, set_global. cbn [s_usable s_n s_lyrs s_data s_data2 s_global s_srow s_erow s_scol s_ecol s_lpos s_lidx].
  rewrite A, B, E, F, G. repeat split.
Qed.

Lemma cells_In k vi : In vi (cells k all) <-> in_group feq toint r groups k vi.
Proof.
  rewrite in_group_key. unfold SubsetProofs.cells, SubsetProofs.all. rewrite filter_In, zseq_In, keyb_true. reflexivity.
Qed.

Lemma cells_sorted k : StronglySorted Z.lt (cells k all).
Proof. apply filter_sorted, StronglySorted_zseq. Qed.

Lemma in_group_fun k k' vi : in_group feq toint r groups k vi -> in_group feq toint r groups k' vi -> k = k'.
Proof. rewrite !in_group_key. intros [_ A] [_ B]. congruence. Qed.

(** Positions in the window. *)
Lemma p_mono a b : 0 <= a < b -> b < r_ncells r -> prow a * r_cols r + pcol a < prow b * r_cols r + pcol b.
Proof.
  intros A B. pose proof (cols_pos r ix C) as P. unfold SubsetProofs.prow, SubsetProofs.pcol.
  pose proof (n_ix r ix C) as N.
  pose proof (Z.div_mod (nth (Z.to_nat a) ix 0) (r_cols r) ltac:(lia)) as E1.
  pose proof (Z.div_mod (nth (Z.to_nat b) ix 0) (r_cols r) ltac:(lia)) as E2.
  assert (nth (Z.to_nat a) ix 0 < nth (Z.to_nat b) ix 0).
  { pose proof C as (_ & _ & _ & _ & _ & _ & _ & _ & _ & SO & _).
    apply (sorted_nth_lt ix (Z.to_nat a) (Z.to_nat b)); [exact SO| | |lia]; apply nth_error_nth'; lia. }
  lia.
Qed.
Lemma pcol_range a : 0 <= pcol a < r_cols r.
Proof. pose proof (cols_pos r ix C). apply Z.mod_pos_bound. lia. Qed.

Lemma prow_range a : 0 <= a < r_ncells r -> 0 <= prow a < r_rows r.
Proof.
  intros B. destruct (ix_at r ix C a B) as [_ IB]. pose proof (cols_pos r ix C) as P. unfold SubsetProofs.prow.
  split; [apply Z.div_pos; lia|apply Z.div_lt_upper_bound; lia].
Qed.

Definition lidx (s : subset D) (vi : Z) : Z := (prow vi - s_srow s) * (s_ecol s - s_scol s + 1) + (pcol vi - s_scol s).

Lemma lidx_mono s a b : 0 <= a < b -> b < r_ncells r ->
  s_scol s <= pcol a <= s_ecol s -> s_scol s <= pcol b <= s_ecol s -> lidx s a < lidx s b.
Proof.
  intros A B Ca Cb. pose proof (p_mono a b A B) as M. pose proof (pcol_range a). pose proof (pcol_range b).
  unfold lidx. assert (prow a < prow b \/ prow a = prow b) as [L|L] by nia; [nia|rewrite L in *; lia].
Qed.

Lemma li_sorted k s : (forall vi, In vi (cells k all) -> s_scol s <= pcol vi <= s_ecol s) ->
  StronglySorted Z.lt (map (lidx s) (cells k all)).
Proof.
  pose proof (cells_sorted k) as S. pose proof (cells_range feq toint r groups k) as F. revert S F.
  induction (cells k all) as [|a c IH]; intros S F H; cbn [map]; constructor.
  - inversion S; inversion F; subst. apply IH; auto. intros; apply H; right; assumption.
  - inversion S as [|? ? _ G]; inversion F as [|? ? B1 B2]; subst. apply Forall_forall. intros y Hy. apply in_map_iff in Hy.
    destruct Hy as (b & <- & Hb). rewrite Forall_forall in G, B2. specialize (G b Hb). specialize (B2 b Hb). cbn in B1, B2.
    apply lidx_mono; [lia|lia|apply H; left; reflexivity|apply H; right; exact Hb].
Qed.
End Built.

(** * Writing disjoint elements *)
Definition put {A} (a : list A) (iv : Z * A) : list A := upd a (Z.to_nat (fst iv)) (snd iv).

Lemma puts_length {A} ws : forall a : list A, length (fold_left put ws a) = length a.
Proof. induction ws as [|w ws IH]; intros a; cbn [fold_left]; [reflexivity|]. rewrite IH. apply upd_length. Qed.

Lemma puts_other {A} ws : forall (a : list A) i, 0 <= i -> ~ In i (map fst ws) -> Forall (fun iv => 0 <= fst iv) ws ->
  nth_error (fold_left put ws a) (Z.to_nat i) = nth_error a (Z.to_nat i).
Proof.
  induction ws as [|w ws IH]; intros a i I N F; cbn [fold_left]; [reflexivity|].
  inversion F as [|? ? F1 F2]; subst. rewrite IH; [|exact I|intros H; apply N; right; exact H|exact F2]. unfold put. rewrite upd_nth.
  destruct (Nat.eqb_spec (Z.to_nat i) (Z.to_nat (fst w))) as [E|E]; [|reflexivity].
  exfalso. apply N. left. lia.
Qed.

Lemma puts_in {A} ws : forall (a : list A) i v, NoDup (map fst ws) -> Forall (fun iv => 0 <= fst iv < Z.of_nat (length a)) ws ->
  In (i, v) ws -> nth_error (fold_left put ws a) (Z.to_nat i) = Some v.
Proof.
  induction ws as [|w ws IH]; intros a i v N F H; cbn [fold_left]; [destruct H|].
  inversion N as [|? ? N1 N2]; inversion F as [|? ? F1 F2]; subst. destruct H as [->|H].
  - rewrite puts_other; [|cbn in F1; lia|exact N1|eapply Forall_impl; [|exact F2]; cbn; intros; lia].
    unfold put. cbn [fst snd] in *. rewrite upd_nth, Nat.eqb_refl.
    destruct (Z.to_nat i <? length a)%nat eqn:L; [reflexivity|lia].
  - apply IH; [exact N2| |exact H]. unfold put. rewrite upd_length. exact F2.
Qed.

Lemma try_writes {A B} (m : B -> outcome (option (Z * A))) (w : B -> Z * A) l : forall a,
  (forall b, In b l -> m b = Ok (Some (w b)) /\ 0 <= fst (w b) < Z.of_nat (length a)) ->
  ofold (fun st b => try_write st (m b)) l (Some a) = Ok (Some (fold_left put (map w l) a)).
Proof.
  induction l as [|b l IH]; intros a H; cbn [ofold map fold_left]; [reflexivity|].
  destruct (H b (or_introl eq_refl)) as [E B1]. unfold try_write at 1. rewrite E. cbn [obind].
  destruct (w b) as [i v] eqn:W. cbn [fst] in B1. unfold aset. destruct (i <? 0) eqn:I; [lia|].
  destruct (Z.to_nat i <? length a)%nat eqn:L; [|lia]. cbn [obind].
  rewrite IH; [reflexivity|]. intros b' Hb'. rewrite upd_length. apply H. right. exact Hb'.
Qed.

Lemma try_writes_none {A B} (m : B -> outcome (option (Z * A))) l :
  ofold (fun st b => try_write st (m b)) l None = Ok None.
Proof. induction l as [|b l IH]; cbn [ofold]; [reflexivity|]. cbn [try_write obind]. exact IH. Qed.

Lemma cell_layers_In n lyrs vl : In vl (cell_layers n lyrs) <-> 0 <= fst vl < n /\ 0 <= snd vl < lyrs.
Proof.
  unfold cell_layers. rewrite in_flat_map. split.
  - intros (v & Hv & H). apply in_map_iff in H. destruct H as (l & <- & Hl). apply zseq_In in Hv, Hl. cbn. lia.
  - intros [A B]. exists (fst vl). split; [apply zseq_In; lia|]. apply in_map_iff. exists (snd vl).
    split; [destruct vl; reflexivity|apply zseq_In; lia].
Qed.
