(** Lemmas about option and header maps. *)
From Coq Require Import ZArith Ascii String List Bool Lia.
From Verif Require Import Base StrModel MapModel.
Import ListNotations.

Lemma beqb_true a b : beqb a b = true <-> a = b.
Proof. unfold beqb. destruct (list_eq_dec ascii_dec a b); split; congruence. Qed.
Lemma beqb_refl a : beqb a a = true.
Proof. apply beqb_true; auto. Qed.
Lemma beqb_false a b : beqb a b = false <-> a <> b.
Proof. unfold beqb. destruct (list_eq_dec ascii_dec a b); split; congruence. Qed.

Section P.
Context {V : Type}.
Implicit Types m : smap V.

Lemma lookup_assign m k v k' :
  lookup (assign m k v) k' = if beqb k k' then match lookup m k with Some _ => Some v | None => None end else lookup m k'.
Proof.
  induction m as [|[a x] m IH]; cbn; [destruct (beqb k k'); auto|].
  destruct (beqb a k) eqn:E.
  - apply beqb_true in E; subst. cbn. destruct (beqb k k') eqn:F; auto.
  - cbn. rewrite IH. destruct (beqb a k') eqn:F; auto.
    apply beqb_true in F; subst. apply beqb_false in E. destruct (beqb k k') eqn:G; auto.
    apply beqb_true in G; congruence.
Qed.

Lemma lookup_app m m' k : lookup (m ++ m') k = match lookup m k with Some v => Some v | None => lookup m' k end.
Proof. induction m as [|[a x] m IH]; cbn; auto. destruct (beqb a k); auto. Qed.

Lemma lookup_emplace m k v k' :
  lookup (emplace m k v) k' = match lookup m k' with Some w => Some w | None => if beqb k k' then Some v else None end.
Proof.
  unfold emplace. destruct (lookup m k) eqn:E.
  - destruct (lookup m k') eqn:F; auto. destruct (beqb k k') eqn:G; auto. apply beqb_true in G; congruence.
  - rewrite lookup_app. cbn. destruct (lookup m k'); auto.
Qed.

Lemma lookup_UpdateMap m k v k' : lookup (UpdateMap m k v) k' = if beqb k k' then Some v else lookup m k'.
Proof.
  unfold UpdateMap. destruct (lookup m k) eqn:E.
  - rewrite lookup_assign, E. auto.
  - rewrite lookup_emplace. destruct (beqb k k') eqn:F.
    + apply beqb_true in F; subst. rewrite E; auto.
    + destruct (lookup m k'); auto.
Qed.

Lemma lookup_none m k : lookup m k = None <-> ~ In k (map fst m).
Proof.
  induction m as [|[a x] m IH]; cbn; [tauto|]. destruct (beqb a k) eqn:E.
  - apply beqb_true in E. split; [congruence|tauto].
  - apply beqb_false in E. rewrite IH. tauto.
Qed.

Lemma CopyMap_fold (src : smap V) : forall dst,
  CopyMap src dst = fold_left (fun d kv => UpdateMap d (fst kv) (snd kv)) src dst.
Proof. intros. unfold CopyMap, UpdateMap. destruct src; auto. Qed.

Theorem CopyMap_lookup (src : smap V) : NoDup (map fst src) -> forall dst k,
  lookup (CopyMap src dst) k = match lookup src k with Some v => Some v | None => lookup dst k end.
Proof.
  intros HN dst k. rewrite CopyMap_fold. revert dst HN.
  induction src as [|[a x] src IH]; intros dst HN; cbn; auto.
  inversion HN; subst. rewrite IH by auto. rewrite lookup_UpdateMap.
  destruct (beqb a k) eqn:E.
  - apply beqb_true in E; subst. apply lookup_none in H1. cbn in H1. rewrite H1. auto.
  - auto.
Qed.

Lemma assign_keys m k v : map fst (assign m k v) = map fst m.
Proof. induction m as [|[a x] m IH]; cbn; auto. destruct (beqb a k); cbn; congruence. Qed.

Lemma emplace_NoDup m k v : NoDup (map fst m) -> NoDup (map fst (emplace m k v)).
Proof.
  intros H. unfold emplace. destruct (lookup m k) eqn:E; auto. apply lookup_none in E.
  rewrite map_app. cbn.
  rewrite <- (rev_involutive (map fst m ++ [k])). apply NoDup_rev. rewrite rev_app_distr. cbn.
  constructor; [rewrite <- in_rev; auto|apply NoDup_rev; auto].
Qed.

Lemma UpdateMap_NoDup m k v : NoDup (map fst m) -> NoDup (map fst (UpdateMap m k v)).
Proof.
  intros H. unfold UpdateMap. destruct (lookup m k).
  - rewrite assign_keys; auto.
  - apply emplace_NoDup; auto.
Qed.

Lemma CopyMap_NoDup (src : smap V) : forall dst, NoDup (map fst dst) -> NoDup (map fst (CopyMap src dst)).
Proof.
  intros dst. rewrite CopyMap_fold. revert dst.
  induction src; cbn; intros; auto. apply IHsrc. apply UpdateMap_NoDup; auto.
Qed.
End P.

(** ** Histories *)
Inductive mop V :=
| MUpdate (k : bytes) (v : V)
| MCopy (src : smap V).
Arguments MUpdate {V}. Arguments MCopy {V}.

Definition mop_run {V} (o : mop V) (m : smap V) : smap V :=
  match o with MUpdate k v => UpdateMap m k v | MCopy src => CopyMap src m end.
Definition mop_ok {V} (o : mop V) : Prop :=
  match o with MUpdate _ _ => True | MCopy src => NoDup (map fst src) end.
(** The call gives key [k] the value [v]. *)
Definition mop_gives {V} (o : mop V) (k : bytes) (v : V) : Prop :=
  match o with MUpdate k' v' => k' = k /\ v' = v | MCopy src => In (k, v) src end.

Lemma lookup_In {V} (m : smap V) k v : lookup m k = Some v -> In (k, v) m.
Proof.
  induction m as [|[a x] m IH]; cbn; try discriminate. destruct (beqb a k) eqn:E.
  - apply beqb_true in E. intros [= ->]. left; congruence.
  - right; auto.
Qed.
Lemma In_lookup {V} (m : smap V) k v : NoDup (map fst m) -> In (k, v) m -> lookup m k = Some v.
Proof.
  induction m as [|[a x] m IH]; cbn; [tauto|]. intros HN [E|H].
  - inversion E; subst. rewrite beqb_refl; auto.
  - inversion HN; subst. destruct (beqb a k) eqn:E; auto. apply beqb_true in E; subst.
    exfalso. apply H2. apply in_map_iff. exists (k, v); auto.
Qed.

Lemma mop_gives_lookup {V} (o : mop V) m k v : mop_ok o -> mop_gives o k v -> lookup (mop_run o m) k = Some v.
Proof.
  destruct o; cbn; intros Ho Hg.
  - destruct Hg; subst. rewrite lookup_UpdateMap, beqb_refl; auto.
  - rewrite CopyMap_lookup by auto. rewrite (In_lookup _ _ _ Ho Hg); auto.
Qed.
Lemma mop_silent {V} (o : mop V) m k : mop_ok o -> (forall v, ~ mop_gives o k v) -> lookup (mop_run o m) k = lookup m k.
Proof.
  destruct o; cbn; intros Ho Hg.
  - rewrite lookup_UpdateMap. destruct (beqb k0 k) eqn:E; auto. apply beqb_true in E; subst. exfalso; eapply Hg; eauto.
  - rewrite CopyMap_lookup by auto. destruct (lookup src k) eqn:E; auto. exfalso; eapply Hg. apply lookup_In; eauto.
Qed.

Lemma mops_silent {V} (ops : list (mop V)) k : forall m, Forall mop_ok ops -> (forall o v, In o ops -> ~ mop_gives o k v) ->
  lookup (fold_left (fun m o => mop_run o m) ops m) k = lookup m k.
Proof.
  induction ops as [|o ops IH]; cbn; intros m HF HS; auto. inversion HF; subst.
  rewrite IH; auto. apply mop_silent; auto.
Qed.

Theorem mops_last {V} (before after : list (mop V)) o m k v :
  Forall mop_ok (before ++ o :: after) -> mop_gives o k v -> (forall o' v', In o' after -> ~ mop_gives o' k v') ->
  lookup (fold_left (fun m o => mop_run o m) (before ++ o :: after) m) k = Some v.
Proof.
  intros HF Hg HS. rewrite fold_left_app. cbn. apply Forall_app in HF. destruct HF as [_ HF]. inversion HF; subst.
  rewrite mops_silent; auto. apply mop_gives_lookup; auto.
Qed.

Theorem mops_NoDup {V} (ops : list (mop V)) : forall m, NoDup (map fst m) ->
  NoDup (map fst (fold_left (fun m o => mop_run o m) ops m)).
Proof.
  induction ops as [|o ops IH]; cbn; intros m H; auto. apply IH.
  destruct o; cbn; [apply UpdateMap_NoDup|apply CopyMap_NoDup]; auto.
Qed.
