(** Proofs about the raster tool: order of options, data items, data sets. *)
From Coq Require Import ZArith Ascii String List Bool Lia Permutation Sorted.
From Verif Require Import Base StrModel StrSpec StrProofs MapModel MapProofs FsModel BasicModel SubsetModel AppModel AppSpec AppProofs ToolModel ToolSpec.
Import ListNotations.
Open Scope Z_scope.
Open Scope outcome_scope.

(** ** Keys in order *)
Lemma key_le_refl a : key_le a a = true.
Proof. induction a; cbn; auto. rewrite N.ltb_irrefl, N.eqb_refl. auto. Qed.

Lemma key_le_total a : forall b, key_le a b = true \/ key_le b a = true.
Proof.
  induction a as [|x a IH]; intros [|y b]; cbn; auto.
  destruct (N.lt_trichotomy (N_of_ascii x) (N_of_ascii y)) as [H|[H|H]].
  - rewrite (proj2 (N.ltb_lt _ _) H). auto.
  - rewrite H, N.ltb_irrefl, N.eqb_refl. apply IH.
  - rewrite (proj2 (N.ltb_lt _ _) H). auto.
Qed.

Lemma key_le_trans a : forall b c, key_le a b = true -> key_le b c = true -> key_le a c = true.
Proof.
  induction a as [|x a IH]; intros [|y b] [|z c]; cbn; auto; try discriminate.
  intros H1 H2.
  destruct (N.ltb_spec (N_of_ascii x) (N_of_ascii y)) as [A|A].
  - destruct (N.ltb_spec (N_of_ascii y) (N_of_ascii z)) as [B|B].
    + rewrite (proj2 (N.ltb_lt (N_of_ascii x) (N_of_ascii z))); [reflexivity|lia].
    + destruct (N.eqb_spec (N_of_ascii y) (N_of_ascii z)) as [C|C]; [|discriminate].
      rewrite (proj2 (N.ltb_lt (N_of_ascii x) (N_of_ascii z))); [reflexivity|lia].
  - destruct (N.eqb_spec (N_of_ascii x) (N_of_ascii y)) as [C|C]; [|discriminate]. rewrite C.
    destruct (N_of_ascii y <? N_of_ascii z)%N; [reflexivity|].
    destruct (N_of_ascii y =? N_of_ascii z)%N; [|discriminate]. eauto.
Qed.

Lemma key_le_antisym a : forall b, key_le a b = true -> key_le b a = true -> a = b.
Proof.
  induction a as [|x a IH]; intros [|y b]; cbn; auto; try discriminate.
  intros H1 H2.
  destruct (N.ltb_spec (N_of_ascii x) (N_of_ascii y)) as [A|A].
  - destruct (N.ltb_spec (N_of_ascii y) (N_of_ascii x)) as [B|B]; [lia|].
    destruct (N.eqb_spec (N_of_ascii y) (N_of_ascii x)); [lia|discriminate].
  - destruct (N.eqb_spec (N_of_ascii x) (N_of_ascii y)) as [C|C]; [|discriminate].
    rewrite C, N.ltb_irrefl, N.eqb_refl in H2. f_equal; [|auto].
    rewrite <- (ascii_N_embedding x), <- (ascii_N_embedding y), C. reflexivity.
Qed.

Definition kle {A} (e f : bytes * A) : Prop := key_le (fst e) (fst f) = true.

Lemma insert_perm {A} (e : bytes * A) l : Permutation (key_insert e l) (e :: l).
Proof.
  induction l as [|f l IH]; cbn; [auto|]. destruct (key_le (fst e) (fst f)); [auto|].
  rewrite IH. apply perm_swap.
Qed.
Lemma by_key_perm {A} (m : smap A) : Permutation (by_key m) m.
Proof. induction m as [|e m IH]; cbn; [auto|]. unfold by_key in *. cbn. rewrite insert_perm, IH. auto. Qed.

Lemma insert_sorted {A} (e : bytes * A) l : StronglySorted kle l -> StronglySorted kle (key_insert e l).
Proof.
  induction l as [|f l IH]; intros H; cbn; [repeat constructor|].
  inversion H as [|? ? H1 H2]; subst. destruct (key_le (fst e) (fst f)) eqn:E.
  - constructor; [exact H|]. constructor; [exact E|]. eapply Forall_impl; [|exact H2]. intros g G. eapply key_le_trans; eassumption.
  - constructor; [auto|]. rewrite Forall_forall in *. intros g G.
    apply (Permutation_in _ (insert_perm e l)) in G. destruct G as [<-|G]; [|auto].
    destruct (key_le_total (fst e) (fst f)) as [K|K]; [congruence|exact K].
Qed.
Lemma by_key_sorted {A} (m : smap A) : StronglySorted kle (by_key m).
Proof. induction m as [|e m IH]; cbn; [constructor|]. apply insert_sorted. exact IH. Qed.

Lemma by_key_nodup {A} (m : smap A) : NoDup (map fst m) -> NoDup (map fst (by_key m)).
Proof. intros H. eapply Permutation_NoDup; [|exact H]. apply Permutation_map. symmetry. apply by_key_perm. Qed.

Lemma lookup_perm {A} (m m' : smap A) k : NoDup (map fst m) -> Permutation m m' -> lookup m k = lookup m' k.
Proof.
  intros N P. assert (N' : NoDup (map fst m')) by (eapply Permutation_NoDup; [|exact N]; apply Permutation_map; exact P).
  destruct (lookup m k) eqn:E.
  - symmetry. apply In_lookup; [exact N'|]. eapply Permutation_in; [exact P|]. clear - E.
    induction m as [|[k' v'] m IH]; cbn in *; [discriminate|]. destruct (beqb k' k) eqn:B; [|auto]. apply beqb_true in B. injection E as ->. subst. auto.
  - destruct (lookup m' k) eqn:E'; [|reflexivity]. exfalso.
    assert (I : In (k, a) m).
    { eapply Permutation_in; [symmetry; exact P|]. clear - E'.
      induction m' as [|[k' v'] m IH]; cbn in *; [discriminate|]. destruct (beqb k' k) eqn:B; [|auto]. apply beqb_true in B. injection E' as ->. subst. auto. }
    apply (In_lookup m k a N) in I. congruence.
Qed.

Definition opt_list {A} (o : option A) : list A := match o with Some a => [a] | None => [] end.
Definition is2 (a b k : bytes) : bool := beqb k a || beqb k b.

Lemma beqb_refl a : beqb a a = true.
Proof. apply beqb_true. reflexivity. Qed.
Lemma beqb_neq a b : a <> b -> beqb a b = false.
Proof. intros H. destruct (beqb a b) eqn:E; [|reflexivity]. apply beqb_true in E. contradiction. Qed.

Lemma lookup_notin {A} (m : smap A) k : ~ In k (map fst m) -> lookup m k = None.
Proof.
  induction m as [|[k' v] m IH]; cbn; intros H; [reflexivity|]. rewrite beqb_neq by tauto. apply IH. tauto.
Qed.

Lemma filter_none2 {A} (l : smap A) a b : ~ In a (map fst l) -> ~ In b (map fst l) -> filter (fun kv => is2 a b (fst kv)) l = [].
Proof.
  induction l as [|[k v] l IH]; cbn; intros H1 H2; [reflexivity|]. unfold is2 at 1. cbn [fst].
  rewrite (beqb_neq k a), (beqb_neq k b) by tauto. cbn. apply IH; tauto.
Qed.

Lemma filter_pair_sorted {A} (l : smap A) a b : key_le a b = true -> a <> b -> StronglySorted kle l -> NoDup (map fst l) ->
  map snd (filter (fun kv => is2 a b (fst kv)) l) = opt_list (lookup l a) ++ opt_list (lookup l b).
Proof.
  intros L N. induction l as [|[k v] l IH]; intros S D; [reflexivity|].
  inversion S as [|? ? S1 S2]; subst. cbn [map] in D. inversion D as [|? ? D1 D2]; subst. cbn [filter fst lookup]. unfold is2 at 1.
  destruct (beqb k a) eqn:Ea.
  - apply beqb_true in Ea. subst k. cbn [orb map opt_list app snd]. rewrite (beqb_neq a b N). f_equal.
    rewrite IH by assumption. rewrite (lookup_notin l a D1). reflexivity.
  - destruct (beqb k b) eqn:Eb.
    + apply beqb_true in Eb. subst k. cbn [orb map snd].
      assert (NA : ~ In a (map fst l)).
      { intros I. apply in_map_iff in I. destruct I as [[a' v'] [E I]]. cbn in E. subst a'.
        rewrite Forall_forall in S2. specialize (S2 _ I). cbv [kle fst] in S2. apply N. apply key_le_antisym; assumption. }
      rewrite (lookup_notin l a NA). cbn [opt_list app]. rewrite filter_none2; [reflexivity|exact NA|exact D1].
    + cbn [orb]. rewrite IH by assumption. reflexivity.
Qed.

(** The values of an option with two names, in the order they are taken. *)
Lemma filter_pair {A} (m : smap A) a b : key_le a b = true -> a <> b -> NoDup (map fst m) ->
  map snd (filter (fun kv => is2 a b (fst kv)) (by_key m)) = opt_list (lookup m a) ++ opt_list (lookup m b).
Proof.
  intros L N D. rewrite (lookup_perm m (by_key m) a D), (lookup_perm m (by_key m) b D) by (symmetry; apply by_key_perm).
  apply filter_pair_sorted; auto using by_key_sorted, by_key_nodup.
Qed.

Lemma filter_one {A} (m : smap A) a : NoDup (map fst m) ->
  map snd (filter (fun kv => beqb (fst kv) a) (by_key m)) = opt_list (lookup m a).
Proof.
  intros D. rewrite (lookup_perm m (by_key m) a D) by (symmetry; apply by_key_perm).
  pose proof (by_key_nodup m D) as D'. revert D'. generalize (by_key m). clear. intros l D.
  induction l as [|[k v] l IH]; [reflexivity|]. cbn [map] in D. inversion D as [|? ? D1 D2]; subst. cbn [filter fst lookup].
  destruct (beqb k a) eqn:E; [|auto]. apply beqb_true in E. subst. cbn [map opt_list snd]. rewrite (IH D2), (lookup_notin l a D1). reflexivity.
Qed.
