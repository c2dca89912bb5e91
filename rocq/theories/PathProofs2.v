(** Resolution of names: results, changes of the tree. *)
From Coq Require Import ZArith Lia Ascii String List Bool.
From Verif Require Import Base ListLib StrModel StrProofs MapModel FsModel FsProofs PathModel PathSpec PathProofs.
Import ListNotations.
Open Scope Z_scope.

Ltac walk_induct := let l := fresh in let p := fresh in let c := fresh in intros l p c; pattern l, p, c; apply walk_ind; clear l p c.

Lemma dots_spec c : (beqb c [] || beqb c (str "."))%bool = false -> beqb c (str "..") = false -> c <> [] /\ c <> str "." /\ c <> str "..".
Proof. intros A B. apply orb_false_iff in A as [A1 A2]. apply beqb_false in A1, A2, B. auto. Qed.

Lemma walk_kind root : forall links pos cs, (cs = [] -> exists k, kind_at root pos = Some k /\ solid k) -> forall q, walk false root links pos cs = Some q ->
  exists k, kind_at root q = Some k /\ solid k.
Proof.
  walk_induct. intros links pos cs IHc IHl ST q. rewrite walk_unfold. destruct cs as [|c r]; [intros [= <-]; auto|].
  destruct (kind_at root pos) as [[| | |]|] eqn:KP; try discriminate. assert (L : (List.length r < List.length (c :: r))%nat) by (cbn; lia).
  destruct (beqb c [] || beqb c (str "."))%bool; [apply IHc; [exact L|]; intros _; exists KDir; split; [exact KP|exact I]|].
  destruct (beqb c (str "..")); [apply IHc; [exact L|]; intros _; exists KDir; split; [apply kind_up; exact KP|exact I]|].
  destruct (kind_at root (pos ++ [c])) as [[x|t| |]|] eqn:KC.
  - apply IHc; [exact L|]. intros _. eexists; split; [exact KC|exact I].
  - destruct links as [|l]; [discriminate|]. apply IHl; [lia|]. intros E. exfalso. apply app_eq_nil in E as [E _]. exact (comps_ne _ E).
  - apply IHc; [exact L|]. intros _. eexists; split; [exact KC|exact I].
  - apply IHc; [exact L|]. intros _. eexists; split; [exact KC|exact I].
  - destruct r; discriminate.
Qed.

(** With creation: the last place may be free, in a directory. *)
Lemma walk_create_kind root : forall links pos cs, (cs = [] -> exists k, kind_at root pos = Some k /\ solid k) -> Forall (fun c => ~ In SEP c) cs -> forall q, walk true root links pos cs = Some q ->
  (exists k, kind_at root q = Some k /\ solid k) /\ walk false root links pos cs = Some q \/
  (kind_at root q = None /\ exists d n, q = d ++ [n] /\ kind_at root d = Some KDir /\ entry_name n).
Proof.
  walk_induct. intros links pos cs IHc IHl ST NS q. rewrite !walk_unfold. destruct cs as [|c r]; [intros [= <-]; left; auto|].
  destruct (kind_at root pos) as [[| | |]|] eqn:KP; try discriminate. assert (L : (List.length r < List.length (c :: r))%nat) by (cbn; lia).
  inversion NS as [|? ? NC NR]; subst.
  destruct (beqb c [] || beqb c (str "."))%bool eqn:B1; [apply IHc; [exact L| |exact NR]; intros _; exists KDir; split; [exact KP|exact I]|].
  destruct (beqb c (str "..")) eqn:B2; [apply IHc; [exact L| |exact NR]; intros _; exists KDir; split; [apply kind_up; exact KP|exact I]|].
  destruct (kind_at root (pos ++ [c])) as [[x|t| |]|] eqn:KC.
  - apply IHc; [exact L| |exact NR]. intros _. eexists; split; [exact KC|exact I].
  - destruct links as [|l]; [discriminate|]. apply IHl; [lia| |apply Forall_app; split; [apply comps_no_sep|exact NR]]. intros E. exfalso. apply app_eq_nil in E as [E _]. exact (comps_ne _ E).
  - apply IHc; [exact L| |exact NR]. intros _. eexists; split; [exact KC|exact I].
  - apply IHc; [exact L| |exact NR]. intros _. eexists; split; [exact KC|exact I].
  - destruct r; [|discriminate]. intros [= <-]. right. split; [exact KC|]. exists pos, c. destruct (dots_spec c B1 B2) as (D1 & D2 & D3). split; [reflexivity|]. split; [exact KP|]. repeat split; assumption.
Qed.

(** Successful walks need no creation. *)
Lemma walk_false_true root : forall links pos cs q, walk false root links pos cs = Some q -> walk true root links pos cs = Some q.
Proof.
  walk_induct. intros links pos cs IHc IHl q. rewrite !walk_unfold. destruct cs as [|c r]; [auto|].
  destruct (kind_at root pos) as [[| | |]|] eqn:KP; try discriminate. assert (L : (List.length r < List.length (c :: r))%nat) by (cbn; lia).
  destruct (beqb c [] || beqb c (str "."))%bool; [apply IHc, L|]. destruct (beqb c (str "..")); [apply IHc, L|].
  destruct (kind_at root (pos ++ [c])) as [[x|t| |]|] eqn:KC; try (apply IHc, L); [|destruct r; discriminate].
  destruct links as [|l]; [discriminate|]. apply IHl. lia.
Qed.

(** Down a chain of entries without links. *)
Lemma walk_down create root links : forall cs d k, Forall entry_name cs -> kind_at root (d ++ cs) = Some k -> solid k -> walk create root links d cs = Some (d ++ cs).
Proof.
  induction cs as [|c cs IH]; intros d k F K S; rewrite walk_unfold; [rewrite app_nil_r; reflexivity|].
  inversion F as [|? ? (N1 & N2 & N3 & N4) F']; subst. rewrite (kind_prefix root (c :: cs) d k K) by discriminate.
  apply beqb_false in N1, N2, N3. rewrite N1, N2, N3. cbn [orb].
  assert (E : d ++ c :: cs = (d ++ [c]) ++ cs) by (rewrite <- app_assoc; reflexivity).
  assert (KC : exists k', kind_at root (d ++ [c]) = Some k' /\ solid k').
  { destruct cs as [|c' cs]; [exists k; split; [exact K|exact S]|]. exists KDir. rewrite E in K. split; [eapply kind_prefix; [exact K|discriminate]|exact I]. }
  rewrite E. destruct KC as (k' & KC & SC). rewrite KC. rewrite E in K. destruct k'; try contradiction; apply (IH (d ++ [c]) k); assumption.
Qed.

Lemma walk_down_new root links d n : kind_at root d = Some KDir -> Forall entry_name d -> entry_name n -> kind_at root (d ++ [n]) = None -> kind_at root [] = Some KDir ->
  walk true root links [] (d ++ [n]) = Some (d ++ [n]).
Proof.
  intros K F N KN KR.
  assert (Q : forall cs e, d = e ++ cs -> walk true root links e (cs ++ [n]) = Some (d ++ [n])).
  { induction cs as [|c cs IH]; intros e E; rewrite walk_unfold; cbn [app].
    - rewrite app_nil_r in E. subst e. rewrite K. destruct N as (N1 & N2 & N3 & N4). apply beqb_false in N1, N2, N3. rewrite N1, N2, N3. cbn [orb]. rewrite KN. reflexivity.
    - assert (KE : kind_at root e = Some KDir) by (rewrite E in K; eapply kind_prefix; [exact K|discriminate]). rewrite KE.
      assert (NC : entry_name c) by (rewrite E in F; apply Forall_app in F as [_ F]; inversion F; assumption). destruct NC as (N1 & N2 & N3 & N4). apply beqb_false in N1, N2, N3. rewrite N1, N2, N3. cbn [orb].
      assert (E' : d = (e ++ [c]) ++ cs) by (rewrite <- app_assoc; exact E).
      assert (KC : kind_at root (e ++ [c]) = Some KDir). { destruct cs as [|c' cs]; [rewrite app_nil_r in E'; rewrite <- E'; exact K|]. rewrite E' in K. eapply kind_prefix; [exact K|discriminate]. }
      rewrite KC. apply IH. exact E'. }
  exact (Q d [] eq_refl).
Qed.

(** More entries, same successful walks. *)
Lemma walk_mono A B : (forall p k, kind_at A p = Some k -> kind_at B p = Some k) -> forall links pos cs q, walk false A links pos cs = Some q -> walk false B links pos cs = Some q.
Proof.
  intros M. walk_induct. intros links pos cs IHc IHl q. rewrite !walk_unfold. destruct cs as [|c r]; [auto|].
  destruct (kind_at A pos) as [[| | |]|] eqn:KP; try discriminate. rewrite (M _ _ KP). assert (L : (List.length r < List.length (c :: r))%nat) by (cbn; lia).
  destruct (beqb c [] || beqb c (str "."))%bool; [apply IHc, L|]. destruct (beqb c (str "..")); [apply IHc, L|].
  destruct (kind_at A (pos ++ [c])) as [[x|t| |]|] eqn:KC; try rewrite (M _ _ KC); try (apply IHc, L); [|destruct r; discriminate].
  destruct links as [|l]; [discriminate|]. apply IHl. lia.
Qed.

(** Contents of files do not matter. *)
Definition same_shape (a b : option kind) : Prop := match a, b with Some (KFile _), Some (KFile _) => True | _, _ => a = b end.
Lemma walk_shape create A B : (forall p, same_shape (kind_at A p) (kind_at B p)) -> forall links pos cs, walk create A links pos cs = walk create B links pos cs.
Proof.
  intros M. walk_induct. intros links pos cs IHc IHl. rewrite !walk_unfold. destruct cs as [|c r]; [auto|].
  assert (L : (List.length r < List.length (c :: r))%nat) by (cbn; lia).
  pose proof (M pos) as MP. unfold same_shape in MP.
  assert (E : (match kind_at A pos with Some KDir => true | _ => false end) = (match kind_at B pos with Some KDir => true | _ => false end)).
  { destruct (kind_at A pos) as [[| | |]|], (kind_at B pos) as [[| | |]|]; congruence || reflexivity. }
  assert (D : forall X (a b : X), match kind_at A pos with Some KDir => a | _ => b end = if match kind_at A pos with Some KDir => true | _ => false end then a else b) by (intros; destruct (kind_at A pos) as [[| | |]|]; reflexivity).
  assert (D2 : forall X (a b : X), match kind_at B pos with Some KDir => a | _ => b end = if match kind_at B pos with Some KDir => true | _ => false end then a else b) by (intros; destruct (kind_at B pos) as [[| | |]|]; reflexivity).
  rewrite D, D2, E. destruct (match kind_at B pos with Some KDir => true | _ => false end); [|reflexivity].
  destruct (beqb c [] || beqb c (str "."))%bool; [apply IHc, L|]. destruct (beqb c (str "..")); [apply IHc, L|].
  pose proof (M (pos ++ [c])) as MC. unfold same_shape in MC.
  destruct (kind_at A (pos ++ [c])) as [[x|t| |]|] eqn:KC; destruct (kind_at B (pos ++ [c])) as [[x'|t'| |]|]; try discriminate MC; try (apply IHc, L); try reflexivity.
  injection MC as <-. destruct links as [|l]; [reflexivity|]. apply IHl. lia.
Qed.

(** The place the walk leads to is taken away. *)
Lemma walk_removed A B q k : kind_at A q = Some k -> k <> KDir -> solid k -> kind_at B q = None -> (forall x, x <> q -> kind_at B x = kind_at A x) ->
  forall links pos cs, walk false A links pos cs = Some q -> walk true B links pos cs = Some q.
Proof.
  intros KQ ND SK BQ BO. walk_induct. intros links pos cs IHc IHl. rewrite !walk_unfold. destruct cs as [|c r]; [auto|].
  assert (L : (List.length r < List.length (c :: r))%nat) by (cbn; lia).
  destruct (kind_at A pos) as [[| | |]|] eqn:KP; try discriminate. assert (NP : pos <> q) by congruence. rewrite (BO _ NP), KP.
  destruct (beqb c [] || beqb c (str "."))%bool; [apply IHc, L|]. destruct (beqb c (str "..")); [apply IHc, L|].
  destruct (place_dec (pos ++ [c]) q) as [E|E].
  - rewrite E, KQ, BQ. intros W. assert (r = []). { destruct r as [|c' r]; [reflexivity|]. destruct k; try contradiction; try congruence; rewrite walk_unfold, KQ in W; discriminate. }
    subst r. reflexivity.
  - rewrite (BO _ E). destruct (kind_at A (pos ++ [c])) as [[x|t| |]|] eqn:KC; try (apply IHc, L); [|destruct r; discriminate].
    destruct links as [|l]; [discriminate|]. apply IHl. lia.
Qed.

(** The free place the walk leads to is taken. *)
Lemma walk_filled A B q k : kind_at A q = None -> kind_at B q = Some k -> solid k -> (forall x, x <> q -> kind_at B x = kind_at A x) ->
  forall links pos cs, walk true A links pos cs = Some q -> walk false B links pos cs = Some q.
Proof.
  intros KQ BQ SK BO. walk_induct. intros links pos cs IHc IHl. rewrite !walk_unfold. destruct cs as [|c r]; [auto|].
  assert (L : (List.length r < List.length (c :: r))%nat) by (cbn; lia).
  destruct (kind_at A pos) as [[| | |]|] eqn:KP; try discriminate. assert (NP : pos <> q) by congruence. rewrite (BO _ NP), KP.
  destruct (beqb c [] || beqb c (str "."))%bool; [apply IHc, L|]. destruct (beqb c (str "..")); [apply IHc, L|].
  destruct (place_dec (pos ++ [c]) q) as [E|E].
  - rewrite E, KQ, BQ. destruct r as [|c' r]; [|discriminate]. intros _. destruct k; try contradiction; rewrite walk_unfold; reflexivity.
  - rewrite (BO _ E). destruct (kind_at A (pos ++ [c])) as [[x|t| |]|] eqn:KC; try (apply IHc, L).
    + destruct links as [|l]; [discriminate|]. apply IHl. lia.
    + destruct r; [|discriminate]. intros [= X]. contradiction.
Qed.

(** The first part of a walk. *)
Lemma walk_prefix create root cs2 : cs2 <> [] -> forall links pos cs q, walk create root links pos (cs ++ cs2) = Some q -> exists m, walk false root links pos cs = Some m /\ kind_at root m = Some KDir.
Proof.
  intros NE. walk_induct. intros links pos cs IHc IHl q. rewrite !walk_unfold. destruct cs as [|c r]; cbn [app].
  - destruct cs2 as [|c2 cs2]; [congruence|]. destruct (kind_at root pos) as [[| | |]|] eqn:KP; try discriminate. intros _. exists pos. auto.
  - assert (L : (List.length r < List.length (c :: r))%nat) by (cbn; lia). destruct (kind_at root pos) as [[| | |]|] eqn:KP; try discriminate.
    destruct (beqb c [] || beqb c (str "."))%bool; [apply IHc, L|]. destruct (beqb c (str "..")); [apply IHc, L|].
    destruct (kind_at root (pos ++ [c])) as [[x|t| |]|] eqn:KC; try (apply IHc, L).
    + destruct links as [|l]; [discriminate|]. rewrite app_assoc. apply IHl. lia.
    + destruct (r ++ cs2) eqn:E; [apply app_eq_nil in E as [_ E]; congruence|discriminate].
Qed.

(** A walk, then another one that is the same with any number of links left. *)
Lemma walk_then create root es R : forall links pos cs m, walk false root links pos cs = Some m -> (forall l, walk create root l m es = R) -> walk create root links pos (cs ++ es) = R.
Proof.
  walk_induct. intros links pos cs IHc IHl m W T. rewrite walk_unfold in W. destruct cs as [|c r]; cbn [app].
  - injection W as <-. apply T.
  - assert (L : (List.length r < List.length (c :: r))%nat) by (cbn; lia). rewrite walk_unfold. destruct (kind_at root pos) as [[| | |]|] eqn:KP; try discriminate.
    destruct (beqb c [] || beqb c (str "."))%bool; [eapply IHc; eassumption|]. destruct (beqb c (str "..")); [eapply IHc; eassumption|].
    destruct (kind_at root (pos ++ [c])) as [[x|t| |]|] eqn:KC; try (eapply IHc; eassumption); [|destruct r; discriminate].
    destruct links as [|l]; [discriminate|]. rewrite app_assoc. eapply IHl; [lia|eassumption|assumption].
Qed.

Lemma walk_empties root m es : kind_at root m = Some KDir -> Forall (fun e => e = []) es -> forall create l, walk create root l m es = Some m.
Proof. intros K F create l. induction F as [|e es -> F IH]; rewrite walk_unfold; [reflexivity|]. rewrite K, beqb_self. exact IH. Qed.

Lemma walk_one create root l m n k : kind_at root m = Some KDir -> entry_name n -> kind_at root (m ++ [n]) = Some k -> solid k -> walk create root l m [n] = Some (m ++ [n]).
Proof.
  intros K (N1 & N2 & N3 & N4) KN S. rewrite walk_unfold, K. apply beqb_false in N1, N2, N3. rewrite N1, N2, N3. cbn [orb]. rewrite KN.
  destruct k; try contradiction; rewrite walk_unfold; reflexivity.
Qed.
Lemma walk_none create root l m n : kind_at root m = Some KDir -> entry_name n -> kind_at root (m ++ [n]) = None -> walk create root l m [n] = if create then Some (m ++ [n]) else None.
Proof. intros K (N1 & N2 & N3 & N4) KN. rewrite walk_unfold, K. apply beqb_false in N1, N2, N3. rewrite N1, N2, N3. cbn [orb]. rewrite KN. reflexivity. Qed.
Lemma walk_no_dir create root l m c r : kind_at root m <> Some KDir -> walk create root l m (c :: r) = None.
Proof. intros K. rewrite walk_unfold. destruct (kind_at root m) as [[| | |]|]; congruence || reflexivity. Qed.
