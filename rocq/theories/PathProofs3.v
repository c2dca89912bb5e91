(** Asking, making directories, deleting. *)
From Coq Require Import ZArith Lia Ascii String List Bool.
From Verif Require Import Base ListLib StrModel StrProofs MapModel FsModel FsProofs PathModel PathSpec PathProofs PathProofs2.
Import ListNotations.
Open Scope Z_scope.

Lemma resolve_eq create root cwd p : p <> [] -> resolve create root cwd p = walk create root MAXLINKS (if absolute p then [] else cwd) (comps p).
Proof. destruct p; [congruence|reflexivity]. Qed.

Lemma resolve_kind root cwd p q : resolve false root cwd p = Some q -> exists k, kind_at root q = Some k /\ solid k.
Proof.
  destruct p as [|c p]; [discriminate|]. rewrite resolve_eq by discriminate. apply walk_kind. intros E. exfalso. exact (comps_ne _ E).
Qed.

Lemma resolve_text create root cwd q k : fs_ok root -> kind_at root q = Some k -> solid k -> resolve create root cwd (text q) = Some q.
Proof.
  intros [NO KR] K S. rewrite resolve_eq by apply text_ne. rewrite absolute_text, comps_text by (eapply NO; exact K).
  destruct q as [|c q].
  - apply walk_empties; [exact KR|repeat constructor].
  - rewrite walk_unfold, KR, beqb_self. cbn [orb]. exact (walk_down create root MAXLINKS (c :: q) [] k (NO _ _ K) K S).
Qed.

Lemma resolve_mono A B cwd p q : (forall x k, kind_at A x = Some k -> kind_at B x = Some k) -> resolve false A cwd p = Some q -> resolve false B cwd p = Some q.
Proof. intros M. destruct p; [auto|]. rewrite !resolve_eq by discriminate. apply walk_mono. exact M. Qed.

Section Fs.
Variables (cwd : place) (may may_write : place -> bool).
Notation resolve0 root := (resolve false root cwd).

Lemma abs_eq root p : GetAbsolutePath (os_of cwd root) p = match resolve0 root p with Some q => text q | None => p end.
Proof. unfold GetAbsolutePath. cbn. destruct (resolve false root cwd p); reflexivity. Qed.

Lemma resolve_abs root p : fs_ok root -> resolve0 root (GetAbsolutePath (os_of cwd root) p) = resolve0 root p.
Proof.
  intros OK. rewrite abs_eq. destruct (resolve0 root p) as [q|] eqn:E; [|exact E]. destruct (resolve_kind _ _ _ _ E) as (k & K & S). eapply resolve_text; eauto.
Qed.

Lemma abs_abs root p : fs_ok root -> GetAbsolutePath (os_of cwd root) (GetAbsolutePath (os_of cwd root) p) = GetAbsolutePath (os_of cwd root) p.
Proof. intros OK. rewrite (abs_eq root (GetAbsolutePath _ p)), resolve_abs by exact OK. rewrite (abs_eq root p). destruct (resolve0 root p); reflexivity. Qed.

Lemma stat_abs root p : fs_ok root -> stat cwd root (GetAbsolutePath (os_of cwd root) p) = stat cwd root p.
Proof. intros OK. unfold stat. rewrite resolve_abs by exact OK. reflexivity. Qed.

Lemma dir_exists root p : fs_ok root -> DirectoryExists (os_of cwd root) p = true <-> stat cwd root p = Some KDir.
Proof.
  intros OK. unfold DirectoryExists. cbn [isdir os_of]. rewrite (stat_abs root p OK). destruct (stat cwd root p) as [[| | |]|]; split; congruence.
Qed.

Lemma path_exists root p : fs_ok root -> PathExists cwd root p = true <-> (stat cwd root p = Some KDir \/ exists c, stat cwd root p = Some (KFile c)).
Proof.
  intros OK. unfold PathExists. rewrite (stat_abs root p OK). destruct (stat cwd root p) as [[c| | |]|]; split; try congruence; eauto; intros [H|[d H]]; congruence.
Qed.

Lemma file_exists root p : FileExists cwd root p = true <-> exists q, resolve0 root p = Some q.
Proof.
  unfold FileExists, stat. split.
  - destruct (resolve false root cwd p); [eauto|discriminate].
  - intros [q E]. rewrite E. destruct (resolve_kind _ _ _ _ E) as (k & K & S). rewrite K. reflexivity.
Qed.

(** New directories. *)
Lemma drop_empty_spec l : exists es, l = es ++ drop_empty l /\ Forall (fun e => e = []) es.
Proof.
  induction l as [|[|c e] l (es & E & F)]; cbn [drop_empty]; [exists []; auto| |exists []; auto]. exists ([] :: es). split; [cbn; f_equal; exact E|auto].
Qed.

Lemma mkdir_cases root p b root' : fs_ok root -> mkdir cwd may root p = (b, root') ->
  (b = false /\ root' = root) \/
  (b = true /\ exists d n es, comps p = d ++ n :: es /\ Forall (fun e => e = []) es /\ entry_name n /\ p <> [] /\
    exists e, walk false root MAXLINKS (if absolute p then [] else cwd) d = Some e /\ kind_at root e = Some KDir /\ kind_at root (e ++ [n]) = None /\ may e = true /\
    root' = put root e n (Some (TDir []))).
Proof.
  intros OK. unfold mkdir. destruct (drop_empty_spec (rev (comps p))) as (es & E & F). destruct (drop_empty (rev (comps p))) as [|n r]; [intros [= <- <-]; auto|].
  destruct (dot_name n) eqn:DN; [intros [= <- <-]; auto|]. destruct (walk false root MAXLINKS _ (rev r)) as [e|] eqn:W; [|intros [= <- <-]; auto].
  destruct (kind_at root e) as [[| | |]|] eqn:KE; try (intros [= <- <-]; auto; fail). destruct (kind_at root (e ++ [n])) as [k|] eqn:KN; [intros [= <- <-]; auto|].
  destruct (may e) eqn:ME; [|intros [= <- <-]; auto]. intros [= <- <-]. right. split; [reflexivity|].
  assert (C : comps p = rev r ++ n :: rev es). { rewrite <- (rev_involutive (comps p)), E, rev_app_distr. cbn [rev]. rewrite <- app_assoc. reflexivity. }
  exists (rev r), n, (rev es). split; [exact C|]. split; [apply Forall_rev; exact F|].
  unfold dot_name in DN. apply orb_false_iff in DN as [DN D3]. apply orb_false_iff in DN as [D1 D2]. apply beqb_false in D1, D2, D3.
  split. { repeat split; try assumption. pose proof (comps_no_sep p) as NS. rewrite C in NS. apply Forall_app in NS as [_ NS]. inversion NS; assumption. }
  split. { intros ->. cbn in C. destruct (rev r) as [|x l]; [injection C as <-; congruence|]. injection C as <- C. destruct l; discriminate C. }
  exists e. auto.
Qed.

Lemma dir_put root e n : kind_at root e = Some KDir -> kind_at root (e ++ [n]) = None -> only_change root (put root e n (Some (TDir []))) (e ++ [n]) (Some KDir).
Proof.
  intros K N. pose proof (put_leaf root e n (Some (TDir [])) K) as P.
  assert (A : forall x, get root (e ++ [n]) = Some x -> leaf x) by (intros x G; unfold kind_at in N; rewrite G in N; discriminate).
  assert (B : forall x, Some (TDir []) = Some x -> leaf x) by (intros x [= <-]; exact I).
  split; [rewrite (P A B); destruct (place_dec (e ++ [n]) (e ++ [n])); [reflexivity|congruence]|].
  intros x X. rewrite (P A B). destruct (place_dec x (e ++ [n])); [contradiction|reflexivity].
Qed.

Lemma mono_new root root' q k : kind_at root q = None -> only_change root root' q k -> forall x j, kind_at root x = Some j -> kind_at root' x = Some j.
Proof. intros N [_ O] x j K. rewrite O; [exact K|congruence]. Qed.

Lemma make_cases root p b root' : fs_ok root -> MakeDirectory cwd may root p = (b, root') ->
  (b = true /\ root' = root /\ stat cwd root p = Some KDir) \/ (b = false /\ root' = root /\ stat cwd root p <> Some KDir) \/
  (b = true /\ exists q, resolve0 root' p = Some q /\ resolve0 root p = None /\ kind_at root q = None /\ only_change root root' q (Some KDir) /\ may (removelast q) = true).
Proof.
  intros OK. unfold MakeDirectory. destruct (DirectoryExists (os_of cwd root) (GetAbsolutePath (os_of cwd root) p)) eqn:DE.
  - intros [= <- <-]. left. apply (dir_exists root _ OK) in DE. rewrite stat_abs in DE by exact OK. auto.
  - assert (ND : stat cwd root p <> Some KDir). { rewrite <- stat_abs by exact OK. intros X. apply (dir_exists root _ OK) in X. congruence. }
    intros M. destruct (mkdir_cases root _ b root' OK M) as [[-> ->]|(-> & d & n & es & C & F & EN & NE & e & W & KE & KN & ME & ->)]; [right; left; auto|].
    right. right. split; [reflexivity|]. set (a := GetAbsolutePath _ p) in *. pose proof (dir_put root e n KE KN) as OC. set (root' := put root e n _) in *.
    pose proof (mono_new _ _ _ _ KN OC) as MO. exists (e ++ [n]).
    assert (RA : resolve0 root' a = Some (e ++ [n])).
    { rewrite resolve_eq by exact NE. rewrite C. replace (d ++ n :: es) with ((d ++ [n]) ++ es) by (rewrite <- app_assoc; reflexivity).
      apply walk_then with (m := e ++ [n]); [|intros l; apply walk_empties; [apply (proj1 OC)|exact F]].
      apply walk_then with (m := e); [eapply walk_mono; [exact MO|exact W]|]. intros l. eapply walk_one; [apply MO; exact KE|exact EN|apply (proj1 OC)|exact I]. }
    assert (RP : resolve0 root p = None).
    { destruct (resolve0 root p) as [q|] eqn:RP; [|reflexivity]. exfalso. assert (Q : resolve0 root a = Some q) by (unfold a; rewrite resolve_abs; assumption).
      pose proof (resolve_mono _ _ _ _ _ MO Q) as Q'. rewrite RA in Q'. injection Q' as <-. destruct (resolve_kind _ _ _ _ Q) as (k & K & _). congruence. }
    assert (AP : a = p) by (unfold a; rewrite abs_eq, RP; reflexivity). rewrite AP in RA. split; [exact RA|]. split; [exact RP|]. split; [exact KN|]. split; [exact OC|]. rewrite removelast_last. exact ME.
Qed.

Lemma in_dir_resolve create root dp n : dp <> [] -> entry_name n -> resolve create root cwd (in_dir dp n) = walk create root MAXLINKS (if absolute dp then [] else cwd) (comps dp ++ [n]).
Proof.
  intros N (_ & _ & _ & NS). unfold in_dir. rewrite resolve_eq by (destruct dp; discriminate). rewrite comps_app, (comps_plain n NS). destruct dp; [congruence|reflexivity].
Qed.

Lemma in_dir_none root dp n e : dp <> [] -> entry_name n -> resolve0 root dp = Some e -> kind_at root e = Some KDir -> kind_at root (e ++ [n]) = None -> resolve0 root (in_dir dp n) = None.
Proof.
  intros N EN R K KN. rewrite in_dir_resolve by assumption. rewrite resolve_eq in R by exact N. eapply walk_then; [exact R|]. intros l. apply walk_none; assumption.
Qed.

Lemma mkdir_in root dp n : dp <> [] -> entry_name n -> mkdir cwd may root (in_dir dp n) =
  match resolve0 root dp with
  | Some d => match kind_at root d, kind_at root (d ++ [n]) with
              | Some KDir, None => if may d then (true, put root d n (Some (TDir []))) else (false, root)
              | _, _ => (false, root)
              end
  | None => (false, root)
  end.
Proof.
  intros N EN. pose proof EN as (N1 & N2 & N3 & NS). unfold mkdir, in_dir. rewrite comps_app, (comps_plain n NS), rev_app_distr. cbn [rev app].
  destruct n as [|c n]; [congruence|]. cbn [drop_empty]. unfold dot_name. apply beqb_false in N1, N2, N3. rewrite N1, N2, N3. cbn [orb]. rewrite rev_involutive.
  rewrite resolve_eq by exact N. destruct dp; [congruence|reflexivity].
Qed.

Lemma not_dir root p q k : fs_ok root -> resolve0 root p = Some q -> kind_at root q = Some k -> k <> KDir -> DirectoryExists (os_of cwd root) (GetAbsolutePath (os_of cwd root) p) = false.
Proof.
  intros OK R K N. destruct (DirectoryExists _ _) eqn:E; [|reflexivity]. apply (dir_exists root _ OK) in E. rewrite stat_abs in E by exact OK. unfold stat in E. rewrite R in E. congruence.
Qed.
Lemma not_there root p : fs_ok root -> resolve0 root p = None -> DirectoryExists (os_of cwd root) (GetAbsolutePath (os_of cwd root) p) = false.
Proof.
  intros OK R. destruct (DirectoryExists _ _) eqn:E; [|reflexivity]. apply (dir_exists root _ OK) in E. rewrite stat_abs in E by exact OK. unfold stat in E. rewrite R in E. discriminate.
Qed.
Lemma abs_none root p : resolve0 root p = None -> GetAbsolutePath (os_of cwd root) p = p.
Proof. intros R. rewrite abs_eq, R. reflexivity. Qed.

Lemma make_new root dp n e : fs_ok root -> dp <> [] -> entry_name n -> resolve0 root dp = Some e -> kind_at root e = Some KDir -> kind_at root (e ++ [n]) = None -> may e = true ->
  exists root', MakeDirectory cwd may root (in_dir dp n) = (true, root') /\ only_change root root' (e ++ [n]) (Some KDir).
Proof.
  intros OK N EN R K KN M. pose proof (in_dir_none root dp n e N EN R K KN) as RN. unfold MakeDirectory. rewrite (not_there root _ OK RN), (abs_none root _ RN), mkdir_in by assumption.
  rewrite R, K, KN, M. eexists. split; [reflexivity|]. apply dir_put; assumption.
Qed.

Lemma make_no_parent root dp n : fs_ok root -> dp <> [] -> entry_name n -> stat cwd root dp <> Some KDir -> MakeDirectory cwd may root (in_dir dp n) = (false, root).
Proof.
  intros OK N EN S. unfold stat in S.
  assert (RN : resolve0 root (in_dir dp n) = None).
  { destruct (resolve0 root (in_dir dp n)) as [q|] eqn:E; [|reflexivity]. exfalso. rewrite in_dir_resolve in E by assumption.
    apply walk_prefix in E as (m & W & K); [|discriminate]. rewrite resolve_eq in S by exact N. rewrite W in S. contradiction. }
  unfold MakeDirectory. rewrite (not_there root _ OK RN), (abs_none root _ RN), mkdir_in by assumption. destruct (resolve0 root dp) as [d|]; [|reflexivity].
  destruct (kind_at root d) as [[| | |]|]; congruence || reflexivity.
Qed.

Lemma make_dangling root dp n e t : fs_ok root -> dp <> [] -> entry_name n -> resolve0 root dp = Some e -> kind_at root (e ++ [n]) = Some (KLink t) -> resolve0 root (in_dir dp n) = None ->
  MakeDirectory cwd may root (in_dir dp n) = (false, root).
Proof.
  intros OK N EN R KN RN. unfold MakeDirectory. rewrite (not_there root _ OK RN), (abs_none root _ RN), mkdir_in by assumption. rewrite R, KN.
  destruct (kind_at root e) as [[| | |]|]; reflexivity.
Qed.

(** Deleting. *)
Definition removable_at (root : tree) (q : place) : bool :=
  match q, get root q with [], _ => false | _, Some (TDir (_ :: _)) => false | _, _ => may (removelast q) end.

Lemma remove_text root q k : fs_ok root -> kind_at root q = Some k -> solid k ->
  remove cwd may root (text q) = if removable_at root q then (0, put root (removelast q) (last q []) None) else (-1, root).
Proof.
  intros OK K S. pose proof OK as [NO KR]. unfold remove. rewrite comps_text by (eapply NO; exact K). unfold removable_at. destruct q as [|c q]; [reflexivity|].
  rewrite absolute_text. set (p := c :: q) in *. assert (NP : p <> []) by discriminate. clearbody p. destruct (exists_last NP) as (d & n & ->). clear NP.
  change ([] :: d ++ [n]) with (([] :: d) ++ [n]). rewrite !last_last, !removelast_last.
  assert (EN : entry_name n) by (pose proof (NO _ _ K) as F; apply Forall_app in F as [_ F]; inversion F; assumption). destruct EN as (N1 & N2 & N3 & N4).
  unfold dot_name. apply beqb_false in N1, N2, N3. rewrite N1, N2, N3. cbn [orb]. rewrite walk_unfold, KR, beqb_self. cbn [orb].
  assert (KD : kind_at root d = Some KDir) by (eapply kind_parent; exact K). pose proof (walk_down false root MAXLINKS d [] KDir (NO _ _ KD) KD I) as WD. cbn [app] in WD. rewrite WD.
  unfold kind_at in K. destruct (get root (d ++ [n])) as [[| | |[|]]|] eqn:G; try discriminate K; destruct d; reflexivity.
Qed.

Lemma delete_eq root p : fs_ok root -> DeleteExistedFile cwd may root p =
  match resolve0 root p with Some q => if removable_at root q then (0, put root (removelast q) (last q []) None) else (-1, root) | None => (-1, root) end.
Proof.
  intros OK. unfold DeleteExistedFile. assert (FE : FileExists cwd root (GetAbsolutePath (os_of cwd root) p) = match resolve0 root p with Some _ => true | None => false end).
  { unfold FileExists, stat. rewrite resolve_abs by exact OK. destruct (resolve0 root p) eqn:E; [|reflexivity]. destruct (resolve_kind _ _ _ _ E) as (k & K & _). rewrite K. reflexivity. }
  rewrite FE. destruct (resolve0 root p) as [q|] eqn:E; [|reflexivity]. rewrite abs_eq, E. destruct (resolve_kind _ _ _ _ E) as (k & K & S). eapply remove_text; eauto.
Qed.

Lemma removed root q : removable_at root q = true -> kind_at root q <> None -> only_change root (put root (removelast q) (last q []) None) q None /\ (forall x, get root q = Some x -> leaf x) /\ q <> [] /\ may (removelast q) = true.
Proof.
  unfold removable_at. destruct q as [|c q]; [discriminate|]. set (p := c :: q). assert (NP : p <> []) by discriminate. intros H KN.
  assert (H' : match get root p with Some (TDir (_ :: _)) => false | _ => may (removelast p) end = true) by exact H. clear H. clearbody p. destruct (exists_last NP) as (d & n & ->). rewrite removelast_last, last_last in *.
  assert (L : forall x, get root (d ++ [n]) = Some x -> leaf x). { intros x G. rewrite G in H'. destruct x as [| | |[|]]; try exact I. discriminate. }
  assert (M : may d = true) by (destruct (get root (d ++ [n])) as [[| | |[|]]|]; congruence).
  destruct (kind_at root (d ++ [n])) as [k|] eqn:K; [|congruence]. assert (KD : kind_at root d = Some KDir) by (eapply kind_parent; exact K).
  assert (P : forall x, kind_at (put root d n None) x = if place_dec x (d ++ [n]) then None else kind_at root x) by (intros x; rewrite (put_leaf root d n None KD L) by discriminate; reflexivity).
  split; [|auto]. split; [rewrite P; destruct (place_dec (d ++ [n]) (d ++ [n])); congruence|]. intros x X. rewrite P. destruct (place_dec x (d ++ [n])); [contradiction|reflexivity].
Qed.

Lemma delete_cases root p r root' : fs_ok root -> DeleteExistedFile cwd may root p = (r, root') ->
  (r = -1 /\ root' = root) \/
  (r = 0 /\ exists q, resolve0 root p = Some q /\ only_change root root' q None /\ (forall x, get root q = Some x -> leaf x) /\ resolve0 root' p = None).
Proof.
  intros OK. rewrite delete_eq by exact OK. destruct (resolve0 root p) as [q|] eqn:E; [|intros [= <- <-]; auto]. destruct (removable_at root q) eqn:RM; [|intros [= <- <-]; auto].
  intros [= <- <-]. right. split; [reflexivity|]. exists q. destruct (resolve_kind _ _ _ _ E) as (k & K & S). destruct (removed root q RM) as (OC & L & _ & _); [congruence|].
  split; [reflexivity|]. split; [exact OC|]. split; [exact L|]. set (root' := put _ _ _ _) in *. destruct (resolve0 root' p) as [q'|] eqn:E'; [|reflexivity]. exfalso.
  assert (Q : resolve0 root p = Some q'). { eapply resolve_mono; [|exact E']. intros x j J. destruct OC as [O1 O2]. destruct (place_dec x q) as [->|X]; [congruence|]. rewrite <- O2; assumption. }
  rewrite E in Q. injection Q as <-. destruct (resolve_kind _ _ _ _ E') as (k' & K' & _). destruct OC as [O1 _]. congruence.
Qed.

Lemma delete_file root p q k : fs_ok root -> resolve0 root p = Some q -> kind_at root q = Some k -> k <> KDir -> may (removelast q) = true ->
  exists root', DeleteExistedFile cwd may root p = (0, root') /\ only_change root root' q None.
Proof.
  intros OK R K NK M. rewrite delete_eq by exact OK. rewrite R.
  assert (RM : removable_at root q = true).
  { unfold removable_at. destruct q as [|c q]; [destruct OK as [_ KR]; congruence|]. set (p' := c :: q) in *. unfold kind_at in K. destruct (get root p') as [[| | |[|]]|]; cbn in K; try exact M; congruence. }
  rewrite RM. eexists. split; [reflexivity|]. apply removed; [exact RM|congruence].
Qed.

Lemma delete_empty_dir root p q : fs_ok root -> resolve0 root p = Some q -> get root q = Some (TDir []) -> q <> [] -> may (removelast q) = true ->
  exists root', DeleteExistedFile cwd may root p = (0, root') /\ only_change root root' q None.
Proof.
  intros OK R G NQ M. rewrite delete_eq by exact OK. rewrite R.
  assert (RM : removable_at root q = true) by (unfold removable_at; destruct q as [|c q]; [congruence|]; rewrite G; exact M).
  rewrite RM. eexists. split; [reflexivity|]. apply removed; [exact RM|]. unfold kind_at. rewrite G. discriminate.
Qed.
End Fs.
