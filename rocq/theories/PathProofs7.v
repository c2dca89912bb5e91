(** Cleaning and deleting directories. *)
From Coq Require Import ZArith Lia Ascii String List Bool.
From Verif Require Import Base ListLib StrModel StrProofs MapModel MapProofs FsModel FsProofs PathModel PathModel2 PathSpec PathProofs PathProofs2 PathProofs3 PathProofs4 PathProofs5 PathProofs6.
Import ListNotations.
Open Scope Z_scope.

Lemma names_of_dir root q es : get root q = Some (TDir es) -> forall n, In n (map fst es) <-> kind_at root (q ++ [n]) <> None.
Proof.
  intros G n. unfold kind_at. rewrite get_app, G. cbn [get]. destruct (lookup es n) as [t|] eqn:L; cbn [option_map].
  - split; [discriminate|]. intros _. apply MapProofs.lookup_In in L. apply in_map_iff. exists (n, t). auto.
  - split; [|congruence]. intros I. apply MapProofs.lookup_none in L. contradiction.
Qed.

Lemma names_entry root q es : fs_ok root -> get root q = Some (TDir es) -> Forall entry_name (map fst es).
Proof.
  intros [NO _] G. apply Forall_forall. intros n I. apply (names_of_dir _ _ _ G) in I. destruct (kind_at root (q ++ [n])) as [k|] eqn:K; [|congruence].
  apply NO in K. apply Forall_app in K as [_ K]. inversion K; assumption.
Qed.

Section Dirs.
Variables (cwd : place) (may may_read : place -> bool).
Notation resolve0 root := (resolve false root cwd).

Lemma dir_there root p q : fs_ok root -> resolve0 root p = Some q -> kind_at root q = Some KDir -> DirectoryExists (os_of cwd root) (GetAbsolutePath (os_of cwd root) p) = true.
Proof. intros OK R K. apply dir_exists; [exact OK|]. rewrite stat_abs by exact OK. unfold stat. rewrite R. exact K. Qed.

Lemma entries_text root q es : fs_ok root -> get root q = Some (TDir es) -> entries_of cwd may_read root (text q) = if may_read q then Some (q, map fst es) else None.
Proof.
  intros OK G. unfold entries_of. assert (K : kind_at root q = Some KDir) by (unfold kind_at; rewrite G; reflexivity). rewrite (resolve_text false root cwd q KDir OK K I), G. reflexivity.
Qed.

Lemma match_all o n : entry_matches o (str "*.*") n = true.
Proof. unfold entry_matches. replace (StringMatch (str "*.*") (str "*.*")) with true by reflexivity. rewrite !orb_true_r. reflexivity. Qed.

Lemma find_all root p q es : fs_ok root -> resolve0 root p = Some q -> get root q = Some (TDir es) ->
  FindFiles cwd may_read root (GetAbsolutePath (os_of cwd root) p) (str "*.*") = if may_read q then map (in_dir (text q)) (filter (fun n => negb (hidden n)) (map fst es)) else [].
Proof.
  intros OK R G. unfold FindFiles. rewrite abs_abs by exact OK. rewrite abs_eq, R, (entries_text root q es OK G). destruct (may_read q); [|reflexivity]. f_equal. apply filter_ext. intros n. rewrite match_all. apply andb_true_r.
Qed.

Lemma clean_safe root p q b root' : fs_ok root -> resolve0 root p = Some q -> kind_at root q = Some KDir -> CleanDirectory cwd may may_read root p = (b, root') ->
  fs_ok root' /\ only_removed root root' q /\ kind_at root' q = Some KDir.
Proof.
  intros OK R K. unfold CleanDirectory. rewrite (dir_there root p q OK R K). destruct (kind_dir _ _ K) as (es & G). rewrite (find_all root p q es OK R G).
  set (ns := filter (fun n => negb (hidden n)) (map fst es)).
  assert (F : Forall entry_name ns) by (apply Forall_forall; intros n I; apply filter_In in I as [I _]; pose proof (names_entry _ _ _ OK G) as F; rewrite Forall_forall in F; apply F; exact I).
  destruct (may_read q).
  - pose proof (remove_all cwd may q ns root OK K F) as RA. destruct (remove_files cwd may root (map (in_dir (text q)) ns)) as [k r]. cbn [fst snd] in RA. intros [= _ <-].
    destruct RA as (A1 & A2 & A3 & _). auto.
  - cbn [remove_files]. intros [= _ <-]. split; [exact OK|]. split; [apply removed_refl|exact K].
Qed.

Lemma clean_left root p q es b root' : fs_ok root -> resolve0 root p = Some q -> get root q = Some (TDir es) -> may_read q = true -> may q = true ->
  CleanDirectory cwd may may_read root p = (b, root') ->
  (forall n r, hidden n = true \/ filled_dir root (q ++ [n]) -> kind_at root' (q ++ n :: r) = kind_at root (q ++ n :: r)) /\
  (forall n r, hidden n = false -> ~ filled_dir root (q ++ [n]) -> kind_at root' (q ++ n :: r) = None) /\
  (NoDup (map fst es) -> (b = true <-> forall n, hidden n = false -> ~ filled_dir root (q ++ [n]))).
Proof.
  intros OK R G MR M. assert (K : kind_at root q = Some KDir) by (unfold kind_at; rewrite G; reflexivity).
  unfold CleanDirectory. rewrite (dir_there root p q OK R K), (find_all root p q es OK R G), MR.
  set (ns := filter (fun n => negb (hidden n)) (map fst es)).
  assert (F : Forall entry_name ns) by (apply Forall_forall; intros n I; apply filter_In in I as [I _]; pose proof (names_entry _ _ _ OK G) as F; rewrite Forall_forall in F; apply F; exact I).
  pose proof (remove_all cwd may q ns root OK K F) as RA. destruct (remove_files cwd may root (map (in_dir (text q)) ns)) as [k r0]. cbn [fst snd] in RA. intros [= <- <-].
  destruct RA as (A1 & A2 & A3 & A4 & A5 & A6 & A7 & _ & A9).
  assert (NS : forall n, In n ns <-> kind_at root (q ++ [n]) <> None /\ hidden n = false).
  { intros n. unfold ns. rewrite filter_In, (names_of_dir _ _ _ G), negb_true_iff. reflexivity. }
  split; [|split].
  - intros n r H. destruct (in_dec (list_eq_dec ascii_dec) n ns) as [J|J].
    + apply A6; [exact J|]. apply NS in J as [_ J]. destruct H as [H|H]; [congruence|exact H].
    + apply A5. intros m s J' X. apply app_inv_head in X. injection X as -> _. contradiction.
  - intros n r H NF. destruct (in_dec (list_eq_dec ascii_dec) n ns) as [J|J]; [apply A7; assumption|].
    assert (KN : kind_at root (q ++ [n]) = None). { destruct (kind_at root (q ++ [n])) eqn:X; [|reflexivity]. exfalso. apply J, NS. split; [congruence|exact H]. }
    destruct (kind_at r0 (q ++ n :: r)) as [j|] eqn:X; [|reflexivity]. exfalso. apply (removed_kind _ _ _ _ _ A3) in X.
    destruct r as [|c r]; [congruence|]. change (n :: c :: r) with ([n] ++ c :: r) in X. rewrite app_assoc in X. apply kind_prefix in X; [congruence|discriminate].
  - intros ND. assert (ND' : NoDup ns) by (apply NoDup_filter; exact ND).
    assert (EX : Forall (fun n => kind_at root (q ++ [n]) <> None) ns) by (apply Forall_forall; intros n I; apply NS in I; tauto).
    rewrite Z.eqb_eq, (A9 ND' EX). split.
    + intros [_ B] n H FD. destruct (in_dec (list_eq_dec ascii_dec) n ns) as [J|J]; [exact (B n J FD)|]. apply J, NS. split; [|exact H]. rewrite (filled_is_dir _ _ FD). discriminate.
    + intros B. split; [left; exact M|]. intros n J. apply B. apply NS in J. tauto.
Qed.

Lemma clean_make root p : fs_ok root -> stat cwd root p <> Some KDir -> CleanDirectory cwd may may_read root p = MakeDirectory cwd may root p.
Proof.
  intros OK S. unfold CleanDirectory. destruct (DirectoryExists (os_of cwd root) (GetAbsolutePath (os_of cwd root) p)) eqn:D.
  - apply dir_exists in D; [|exact OK]. rewrite stat_abs in D by exact OK. contradiction.
  - unfold MakeDirectory. rewrite abs_abs by exact OK. reflexivity.
Qed.

(** The entry [n] of the directory at [q] in its text. *)
Lemma resolve_entry root q n : fs_ok root -> kind_at root q = Some KDir -> entry_name n -> kind_at root (q ++ [n]) = Some KDir -> resolve0 root (in_dir (text q) n) = Some (q ++ [n]).
Proof.
  intros OK K EN KN. rewrite in_dir_resolve by (exact EN || apply text_ne). eapply walk_then; [|intros l; eapply walk_one; eauto; exact I].
  pose proof (resolve_text false root cwd q KDir OK K I) as R. rewrite resolve_eq in R by apply text_ne. exact R.
Qed.

Lemma resolve_no_entry root q n : fs_ok root -> kind_at root q = Some KDir -> entry_name n -> kind_at root (q ++ [n]) = None -> resolve0 root (in_dir (text q) n) = None.
Proof. intros OK K EN KN. eapply in_dir_none; [apply text_ne|exact EN|exact (resolve_text false root cwd q KDir OK K I)|exact K|exact KN]. Qed.

(** What a call of DeleteDirectory may do. *)
Definition safe_call (del : tree -> bytes -> option tree) : Prop :=
  forall r p r', fs_ok r -> del r p = Some r' -> fs_ok r' /\ (r' = r \/ exists q, resolve0 r p = Some q /\ kind_at r q = Some KDir /\ only_removed r r' q).

Lemma entries_safe del sub root0 q : safe_call del -> forall ns r r', fs_ok r -> kind_at r q = Some KDir -> only_removed root0 r q -> Forall entry_name ns ->
  delete_entries cwd may del sub root0 q (text q) ns r = Some r' -> fs_ok r' /\ kind_at r' q = Some KDir /\ only_removed root0 r' q.
Proof.
  intros SC. induction ns as [|n ns IH]; intros r r' OK K R F E; cbn [delete_entries] in E; [injection E as <-; auto|].
  inversion F as [|? ? EN F']; subst. fold (in_dir (text q) n) in E.
  assert (ST : forall r1, (if match kind_at root0 (q ++ [n]) with Some KDir => sub | _ => false end then del r (in_dir (text q) n) else Some r) = Some r1 ->
    fs_ok r1 /\ kind_at r1 q = Some KDir /\ only_removed root0 r1 q).
  { intros r1 E1. destruct (match kind_at root0 (q ++ [n]) with Some KDir => sub | _ => false end) eqn:S; [|injection E1 as <-; auto].
    destruct (SC _ _ _ OK E1) as (OK1 & [->|(q' & Q1 & Q2 & Q3)]); [auto|].
    assert (K0 : kind_at root0 (q ++ [n]) = Some KDir) by (destruct (kind_at root0 (q ++ [n])) as [[| | |]|]; congruence).
    destruct (kind_at r (q ++ [n])) as [k|] eqn:KN.
    - pose proof (removed_kind _ _ _ _ _ R KN) as X. rewrite K0 in X. injection X as <-. rewrite (resolve_entry r q n OK K EN KN) in Q1. injection Q1 as <-.
      split; [exact OK1|]. split; [|eapply removed_trans; [exact R|eapply removed_up; exact Q3]]. destruct (Q3 q) as [->|[_ B]]; [exact K|]. exfalso. exact (below_not_up _ _ B).
    - rewrite (resolve_no_entry r q n OK K EN KN) in Q1. discriminate. }
  destruct (if match kind_at root0 (q ++ [n]) with Some KDir => sub | _ => false end then del r (in_dir (text q) n) else Some r) as [r1|]; [|discriminate].
  destruct (ST r1 eq_refl) as (OK1 & K1 & R1). destruct (remove cwd may r1 (in_dir (text q) n)) as [e r2] eqn:E2. cbn [snd] in E.
  destruct (remove_one cwd may r1 q n r2 e OK1 K1 EN E2) as (OK2 & K2 & R2 & _).
  apply (IH r2 r' OK2 K2); [eapply removed_trans; [exact R1|eapply removed_up; exact R2]|exact F'|exact E].
Qed.

Lemma remove_dir root q : fs_ok root -> kind_at root q = Some KDir -> exists e root', remove cwd may root (text q) = (e, root') /\ fs_ok root' /\ only_removed root root' q /\
  (root' = root \/ only_change root root' q None) /\ (filled_dir root q -> root' = root) /\ (may (removelast q) = false -> root' = root) /\ (q = [] -> root' = root) /\
  (~ filled_dir root q -> q <> [] -> may (removelast q) = true -> only_change root root' q None).
Proof.
  intros OK K. rewrite (remove_text cwd may root q KDir OK K I). destruct (removable_at may root q) eqn:RM.
  - destruct (removed may root q RM) as (OC & L & NQ & M); [congruence|]. do 2 eexists. split; [reflexivity|]. split; [|split; [apply removed_change; exact OC|]].
    + destruct (exists_last NQ) as (d & n & Q). pose proof (removed_change _ _ _ OC) as R. rewrite Q in R. rewrite Q. eapply removed_step_ok; eauto.
    + split; [right; exact OC|]. split; [|split; [congruence|split; [congruence|auto]]]. intros F. exfalso. destruct (kind_dir _ _ K) as (es & G). specialize (L _ G). apply (filled_get _ _ _ G) in F. destruct es; [congruence|exact L].
  - do 2 eexists. split; [reflexivity|]. split; [exact OK|]. split; [apply removed_refl|]. split; [auto|]. split; [auto|]. split; [auto|]. split; [auto|]. intros NF NQ M. exfalso.
    unfold removable_at in RM. destruct (kind_dir _ _ K) as (es & G). destruct q as [|c q]; [congruence|]. rewrite G in RM. destruct es as [|e es]; [congruence|]. apply NF, (filled_get _ _ _ G). discriminate.
Qed.

Lemma delete_safe sub : forall fuel, safe_call (DeleteDirectory cwd may may_read fuel sub).
Proof.
  induction fuel as [|fuel IH]; intros r p r' OK E; cbn [DeleteDirectory] in E; [discriminate|].
  destruct (DirectoryExists _ _) eqn:D; cbn [negb] in E; [|injection E as <-; auto].
  apply dir_exists in D; [|exact OK]. rewrite stat_abs in D by exact OK. unfold stat in D. destruct (resolve0 r p) as [q|] eqn:R; [|discriminate].
  destruct (kind_dir _ _ D) as (es & G). rewrite abs_eq, R, (entries_text r q es OK G) in E. destruct (may_read q); [|injection E as <-; auto].
  destruct (delete_entries _ _ _ _ _ _ _ _ _) as [r1|] eqn:E1; [|discriminate].
  destruct (entries_safe _ sub r q IH _ r r1 OK D (removed_refl r q) (names_entry _ _ _ OK G) E1) as (OK1 & K1 & R1).
  destruct (remove_dir r1 q OK1 K1) as (e & r2 & E2 & OK2 & R2 & _). rewrite E2 in E. injection E as <-. split; [exact OK2|]. right. exists q. split; [reflexivity|]. split; [exact D|]. eapply removed_trans; eauto.
Qed.

Lemma lower_step root q n k : within root q (S k) -> within root (q ++ [n]) k.
Proof. intros L x X. rewrite <- app_assoc in X. apply L in X. cbn in X. lia. Qed.
Lemma lower_removed a b q q' k : only_removed a b q' -> within a q k -> within b q k.
Proof. intros R L x X. apply L. destruct (R (q ++ x)) as [E|[E _]]; congruence. Qed.

Lemma delete_ends sub : forall fuel r p, fs_ok r -> (fuel > 0)%nat -> (forall q, resolve0 r p = Some q -> kind_at r q = Some KDir -> within r q fuel) -> exists r', DeleteDirectory cwd may may_read fuel sub r p = Some r'.
Proof.
  induction fuel as [|fuel IH]; intros r p OK P L; [lia|]. cbn [DeleteDirectory].
  destruct (DirectoryExists _ _) eqn:D; cbn [negb]; [|eauto].
  apply dir_exists in D; [|exact OK]. rewrite stat_abs in D by exact OK. unfold stat in D. destruct (resolve0 r p) as [q|] eqn:R; [|discriminate].
  destruct (kind_dir _ _ D) as (es & G). rewrite abs_eq, R, (entries_text r q es OK G). destruct (may_read q); [|eauto]. specialize (L q eq_refl D).
  assert (X : forall ns r1, fs_ok r1 -> kind_at r1 q = Some KDir -> only_removed r r1 q -> Forall entry_name ns -> exists r', delete_entries cwd may (DeleteDirectory cwd may may_read fuel sub) sub r q (text q) ns r1 = Some r').
  { induction ns as [|n ns IHn]; intros r1 OK1 K1 R1 F; cbn [delete_entries]; [eauto|]. inversion F as [|? ? EN F']; subst. fold (in_dir (text q) n).
    destruct (match kind_at r (q ++ [n]) with Some KDir => sub | _ => false end) eqn:S.
    - assert (FU : (fuel > 0)%nat). { assert (X : kind_at r (q ++ [n]) <> None) by (destruct (kind_at r (q ++ [n])); congruence). apply L in X. cbn in X. lia. }
      assert (LN : forall q', resolve0 r1 (in_dir (text q) n) = Some q' -> kind_at r1 q' = Some KDir -> within r1 q' fuel).
      { intros q' Q' KQ. destruct (kind_at r1 (q ++ [n])) as [k|] eqn:KN; [|rewrite (resolve_no_entry r1 q n OK1 K1 EN KN) in Q'; discriminate].
        assert (K0 : kind_at r (q ++ [n]) = Some KDir) by (destruct (kind_at r (q ++ [n])) as [[| | |]|]; congruence).
        pose proof (removed_kind _ _ _ _ _ R1 KN) as Y. rewrite K0 in Y. injection Y as <-. rewrite (resolve_entry r1 q n OK1 K1 EN KN) in Q'. injection Q' as <-.
        apply lower_step. eapply lower_removed; eauto. }
      destruct (IH r1 (in_dir (text q) n) OK1 FU LN) as (r2 & E2). rewrite E2.
      assert (E3 : delete_entries cwd may (DeleteDirectory cwd may may_read fuel sub) sub r q (text q) [n] r1 = Some (snd (remove cwd may r2 (in_dir (text q) n)))).
      { cbn [delete_entries]. fold (in_dir (text q) n). rewrite S, E2. reflexivity. }
      destruct (entries_safe _ sub r q (delete_safe sub fuel) [n] r1 _ OK1 K1 R1 (Forall_cons _ EN (Forall_nil _)) E3) as (A1 & A2 & A3). apply IHn; assumption.
    - assert (E3 : delete_entries cwd may (DeleteDirectory cwd may may_read fuel sub) sub r q (text q) [n] r1 = Some (snd (remove cwd may r1 (in_dir (text q) n)))).
      { cbn [delete_entries]. fold (in_dir (text q) n). rewrite S. reflexivity. }
      destruct (entries_safe _ sub r q (delete_safe sub fuel) [n] r1 _ OK1 K1 R1 (Forall_cons _ EN (Forall_nil _)) E3) as (A1 & A2 & A3). apply IHn; assumption. }
  destruct (X (map fst es) r OK D (removed_refl r q) (names_entry _ _ _ OK G)) as (r' & ->). eauto.
Qed.

(** Everything goes where everything may be listed and written. *)

Lemma open_removed a b q q' : only_removed a b q' -> open_below may may_read a q -> open_below may may_read b q.
Proof. intros R O x X. apply O. eapply removed_kind; eauto. Qed.
Lemma open_step a q n : open_below may may_read a q -> open_below may may_read a (q ++ [n]).
Proof. intros O x X. rewrite <- app_assoc in *. apply O. exact X. Qed.

Lemma delete_all : forall fuel r p q r', fs_ok r -> resolve0 r p = Some q -> kind_at r q = Some KDir -> q <> [] -> open_below may may_read r q -> may (removelast q) = true ->
  DeleteDirectory cwd may may_read fuel true r p = Some r' -> forall x, below q x -> kind_at r' x = None.
Proof.
  induction fuel as [|fuel IH]; intros r p q r' OK R K NQ O M E; cbn [DeleteDirectory] in E; [discriminate|].
  rewrite (dir_there r p q OK R K) in E. cbn [negb] in E. destruct (kind_dir _ _ K) as (es & G). rewrite abs_eq, R, (entries_text r q es OK G) in E.
  pose proof (O []) as O0. rewrite app_nil_r in O0. destruct (O0 K) as [MQ MR]. rewrite MR in E.
  destruct (delete_entries _ _ _ _ _ _ _ _ _) as [r1|] eqn:E1; [|discriminate].
  assert (X : forall ns r0 r1, fs_ok r0 -> kind_at r0 q = Some KDir -> only_removed r r0 q -> Forall entry_name ns ->
    delete_entries cwd may (DeleteDirectory cwd may may_read fuel true) true r q (text q) ns r0 = Some r1 ->
    forall n, In n ns -> kind_at r1 (q ++ [n]) = None).
  { clear r1 E1 E. induction ns as [|n ns IHn]; intros r0 r1 OK0 K0 R0 F E m I; [destruct I|]. inversion F as [|? ? EN F']; subst. cbn [delete_entries] in E. fold (in_dir (text q) n) in E.
    assert (ST : exists r2, delete_entries cwd may (DeleteDirectory cwd may may_read fuel true) true r q (text q) [n] r0 = Some r2 /\ kind_at r2 (q ++ [n]) = None /\
       delete_entries cwd may (DeleteDirectory cwd may may_read fuel true) true r q (text q) ns r2 = Some r1).
    { cbn [delete_entries]. fold (in_dir (text q) n). destruct (match kind_at r (q ++ [n]) with Some KDir => true | _ => false end) eqn:S.
      - destruct (DeleteDirectory cwd may may_read fuel true r0 (in_dir (text q) n)) as [r2|] eqn:E2; [|discriminate]. eexists. split; [reflexivity|]. split; [|exact E].
        destruct (delete_safe true fuel _ _ _ OK0 E2) as (OK2 & SC).
        assert (KN : kind_at r2 (q ++ [n]) = None).
        { destruct (kind_at r0 (q ++ [n])) as [k|] eqn:KN.
          - assert (KR : kind_at r (q ++ [n]) = Some KDir) by (destruct (kind_at r (q ++ [n])) as [[| | |]|]; congruence).
            pose proof (removed_kind _ _ _ _ _ R0 KN) as Y. rewrite KR in Y. injection Y as <-.
            apply (IH r0 (in_dir (text q) n) (q ++ [n]) r2 OK0 (resolve_entry r0 q n OK0 K0 EN KN) KN); [destruct q; discriminate| | |exact E2|apply below_refl].
            + apply open_step. eapply open_removed; eauto.
            + rewrite removelast_last. exact MQ.
          - destruct SC as [->|(q' & Q1 & _)]; [exact KN|]. rewrite (resolve_no_entry r0 q n OK0 K0 EN KN) in Q1. discriminate. }
        assert (K2 : kind_at r2 q = Some KDir).
        { destruct SC as [->|(q' & Q1 & Q2 & Q3)]; [exact K0|]. destruct (Q3 q) as [->|[_ B]]; [exact K0|]. exfalso.
          destruct (kind_at r0 (q ++ [n])) as [k|] eqn:KN0; [|rewrite (resolve_no_entry r0 q n OK0 K0 EN KN0) in Q1; discriminate].
          assert (KR : kind_at r (q ++ [n]) = Some KDir) by (destruct (kind_at r (q ++ [n])) as [[| | |]|]; congruence).
          pose proof (removed_kind _ _ _ _ _ R0 KN0) as Y. rewrite KR in Y. injection Y as <-. rewrite (resolve_entry r0 q n OK0 K0 EN KN0) in Q1. injection Q1 as <-. exact (below_not_up _ _ B). }
        destruct (remove cwd may r2 (in_dir (text q) n)) as [e r3] eqn:E3. cbn [snd]. destruct (remove_one cwd may r2 q n r3 e OK2 K2 EN E3) as (_ & _ & R3 & _).
        destruct (R3 (q ++ [n])) as [->|[Y _]]; assumption.
      - eexists. split; [reflexivity|]. split; [|exact E]. destruct (remove cwd may r0 (in_dir (text q) n)) as [e r3] eqn:E3. cbn [snd].
        destruct (remove_one cwd may r0 q n r3 e OK0 K0 EN E3) as (_ & _ & _ & _ & _ & RN & _). apply RN; [|exact MQ]. intros FD. apply filled_is_dir in FD. apply (removed_kind _ _ _ _ _ R0) in FD. rewrite FD in S. discriminate. }
    destruct ST as (r2 & S1 & S2 & S3). destruct (entries_safe _ true r q (delete_safe true fuel) [n] r0 r2 OK0 K0 R0 (Forall_cons _ EN (Forall_nil _)) S1) as (OK2 & K2 & R2).
    destruct I as [<-|I]; [|eapply IHn; eauto].
    assert (RR : only_removed r2 r1 q).
    { clear - S3 OK2 K2 F' R2. revert r2 OK2 K2 R2 S3. induction F' as [|m ns EM F' IHF]; intros r2 OK2 K2 R2 S3; [cbn in S3; injection S3 as <-; apply removed_refl|].
      assert (S4 : exists r3, delete_entries cwd may (DeleteDirectory cwd may may_read fuel true) true r q (text q) [m] r2 = Some r3 /\ delete_entries cwd may (DeleteDirectory cwd may may_read fuel true) true r q (text q) ns r3 = Some r1 /\ only_removed r2 r3 q).
      { cbn [delete_entries] in *. fold (in_dir (text q) m) in *. destruct (match kind_at r (q ++ [m]) with Some KDir => true | _ => false end) eqn:S.
        - destruct (DeleteDirectory cwd may may_read fuel true r2 (in_dir (text q) m)) as [r4|] eqn:E4; [|discriminate]. eexists. split; [reflexivity|]. split; [exact S3|].
          destruct (delete_safe true fuel _ _ _ OK2 E4) as (OK4 & SC).
          assert (Q : only_removed r2 r4 q /\ kind_at r4 q = Some KDir).
          { destruct SC as [->|(q' & Q1 & Q2 & Q3)]; [split; [apply removed_refl|exact K2]|].
            destruct (kind_at r2 (q ++ [m])) as [k|] eqn:KN; [|rewrite (resolve_no_entry r2 q m OK2 K2 EM KN) in Q1; discriminate].
            assert (KR : kind_at r (q ++ [m]) = Some KDir) by (destruct (kind_at r (q ++ [m])) as [[| | |]|]; congruence).
            pose proof (removed_kind _ _ _ _ _ R2 KN) as Y. rewrite KR in Y. injection Y as <-. rewrite (resolve_entry r2 q m OK2 K2 EM KN) in Q1. injection Q1 as <-.
            split; [eapply removed_up; exact Q3|]. destruct (Q3 q) as [->|[_ B]]; [exact K2|]. exfalso. exact (below_not_up _ _ B). }
          destruct Q as [Q1 Q2]. destruct (remove cwd may r4 (in_dir (text q) m)) as [e r5] eqn:E5. cbn [snd]. destruct (remove_one cwd may r4 q m r5 e OK4 Q2 EM E5) as (_ & _ & R5 & _).
          eapply removed_trans; [exact Q1|eapply removed_up; exact R5].
        - eexists. split; [reflexivity|]. split; [exact S3|]. destruct (remove cwd may r2 (in_dir (text q) m)) as [e r5] eqn:E5. cbn [snd].
          destruct (remove_one cwd may r2 q m r5 e OK2 K2 EM E5) as (_ & _ & R5 & _). eapply removed_up; exact R5. }
      destruct S4 as (r3 & S5 & S6 & S7). destruct (entries_safe _ true r q (delete_safe true fuel) [m] r2 r3 OK2 K2 R2 (Forall_cons _ EM (Forall_nil _)) S5) as (OK3 & K3 & R3).
      eapply removed_trans; [exact S7|]. apply IHF; assumption. }
    destruct (RR (q ++ [n])) as [->|[Y _]]; [exact S2|exact Y]. }
  destruct (entries_safe _ true r q (delete_safe true fuel) _ r r1 OK K (removed_refl r q) (names_entry _ _ _ OK G) E1) as (OK1 & K1 & R1).
  assert (NF : ~ filled_dir r1 q).
  { intros (n & H). assert (I : In n (map fst es)). { apply (names_of_dir _ _ _ G). intros Y. apply H. destruct (R1 (q ++ [n])) as [->|[Z _]]; assumption. }
    apply H. exact (X (map fst es) r r1 OK K (removed_refl r q) (names_entry _ _ _ OK G) E1 n I). }
  destruct (remove_dir r1 q OK1 K1) as (e & r2 & E2 & OK2 & R2 & _ & _ & _ & _ & OC). rewrite E2 in E. injection E as <-.
  destruct (OC NF NQ M) as [KQ _]. intros x [y ->]. destruct y as [|c y]; [rewrite app_nil_r; exact KQ|]. destruct (kind_at r2 (q ++ c :: y)) as [k|] eqn:Y; [|reflexivity]. apply kind_prefix in Y; [congruence|discriminate].
Qed.

(** Without subdirectories. *)
Lemma entries_shallow del root0 q : forall ns r, delete_entries cwd may del false root0 q (text q) ns r = Some (snd (remove_files cwd may r (map (in_dir (text q)) ns))).
Proof.
  induction ns as [|n ns IH]; intros r; cbn [delete_entries map remove_files]; [reflexivity|]. fold (in_dir (text q) n).
  replace (match kind_at root0 (q ++ [n]) with Some KDir => false | _ => false end) with false by (destruct (kind_at root0 (q ++ [n])) as [[| | |]|]; reflexivity).
  rewrite IH. destruct (remove cwd may r (in_dir (text q) n)) as [e r1]. cbn [snd]. destruct (remove_files cwd may r1 _). reflexivity.
Qed.

Lemma delete_shallow fuel r p q : fs_ok r -> resolve0 r p = Some q -> kind_at r q = Some KDir -> q <> [] -> may q = true -> may_read q = true -> may (removelast q) = true ->
  exists r', DeleteDirectory cwd may may_read (S fuel) false r p = Some r' /\
  (forall n x, filled_dir r (q ++ [n]) -> kind_at r' (q ++ n :: x) = kind_at r (q ++ n :: x)) /\
  (forall n x, ~ filled_dir r (q ++ [n]) -> kind_at r' (q ++ n :: x) = None) /\
  ((exists n, filled_dir r (q ++ [n])) -> kind_at r' q = Some KDir) /\ ((forall n, ~ filled_dir r (q ++ [n])) -> kind_at r' q = None).
Proof.
  intros OK R K NQ MQ MR M. cbn [DeleteDirectory]. rewrite (dir_there r p q OK R K). cbn [negb]. destruct (kind_dir _ _ K) as (es & G). rewrite abs_eq, R, (entries_text r q es OK G), MR, entries_shallow.
  pose proof (remove_all cwd may q (map fst es) r OK K (names_entry _ _ _ OK G)) as RA. destruct (remove_files cwd may r (map (in_dir (text q)) (map fst es))) as [k r1]. cbn [fst snd] in *.
  destruct RA as (A1 & A2 & A3 & _ & A5 & A6 & A7 & _). specialize (A7 MQ).
  assert (F1 : forall n x, filled_dir r (q ++ [n]) -> kind_at r1 (q ++ n :: x) = kind_at r (q ++ n :: x)).
  { intros n x F. apply A6; [|exact F]. apply (names_of_dir _ _ _ G). rewrite (filled_is_dir _ _ F). discriminate. }
  assert (F2 : forall n x, ~ filled_dir r (q ++ [n]) -> kind_at r1 (q ++ n :: x) = None).
  { intros n x NF. destruct (in_dec (list_eq_dec ascii_dec) n (map fst es)) as [J|J]; [apply A7; assumption|].
    assert (KN : kind_at r (q ++ [n]) = None). { destruct (kind_at r (q ++ [n])) eqn:Y; [|reflexivity]. exfalso. apply J, (names_of_dir _ _ _ G). congruence. }
    destruct (kind_at r1 (q ++ n :: x)) as [j|] eqn:Y; [|reflexivity]. exfalso. apply (removed_kind _ _ _ _ _ A3) in Y.
    destruct x as [|c x]; [congruence|]. change (n :: c :: x) with ([n] ++ c :: x) in Y. rewrite app_assoc in Y. apply kind_prefix in Y; [congruence|discriminate]. }
  destruct (remove_dir r1 q A1 A2) as (e & r2 & E2 & OK2 & R2 & CH & FI & _ & _ & OC). rewrite E2. cbn [snd]. exists r2. split; [reflexivity|].
  assert (FF : filled_dir r1 q <-> exists n, filled_dir r (q ++ [n])).
  { split.
    - intros (n & H). exists n. destruct (filled_dec r (q ++ [n])) as [F|NF]; [exact F|]. exfalso. apply H. apply F2. exact NF.
    - intros (n & F). exists n. rewrite (F1 n [] F). rewrite (filled_is_dir _ _ F). discriminate. }
  assert (SAME : forall n x, kind_at r2 (q ++ n :: x) = kind_at r1 (q ++ n :: x)).
  { intros n x. destruct CH as [->|[_ O2]]; [reflexivity|]. apply O2. intros Y. apply (f_equal (@List.length bytes)) in Y. rewrite app_length in Y. cbn in Y. lia. }
  split; [intros n x F; rewrite SAME; apply F1; exact F|]. split; [intros n x F; rewrite SAME; apply F2; exact F|].
  split.
  - intros H. apply FF in H. rewrite (FI H). exact A2.
  - intros H. apply OC; [|exact NQ|exact M]. intros F. apply FF in F as (n & F). exact (H n F).
Qed.
End Dirs.
