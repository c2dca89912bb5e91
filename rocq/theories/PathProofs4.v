(** Writing ASC files over what is there. *)
From Coq Require Import ZArith Lia Ascii String List Bool.
From Verif Require Import Base ListLib StrModel StrProofs MapModel FsModel FsProofs PathModel PathSpec PathProofs PathProofs2 PathProofs3.
Import ListNotations.
Open Scope Z_scope.

Lemma only_trans a b c q k k' : only_change a b q k -> only_change b c q k' -> only_change a c q k'.
Proof. intros [_ A] [B1 B2]. split; [exact B1|]. intros x X. rewrite B2, A; auto. Qed.

Lemma find_last_some a n : ~ In SEP n -> find_last SEP (a ++ SEP :: n) = Some (List.length a).
Proof.
  intros N. induction a as [|c a IH]; cbn [app find_last List.length].
  - assert (E : find_last SEP n = None). { induction n as [|x n IH]; [reflexivity|]. cbn [find_last]. rewrite IH by (intros X; apply N; right; exact X). destruct (ascii_dec x SEP) as [->|]; [exfalso; apply N; left; reflexivity|reflexivity]. }
    rewrite E. destruct (ascii_dec SEP SEP); [reflexivity|congruence].
  - rewrite IH. reflexivity.
Qed.
Lemma find_last_split s i : find_last SEP s = Some i -> exists a n, s = a ++ SEP :: n /\ ~ In SEP n /\ i = List.length a.
Proof.
  revert i. induction s as [|c s IH]; intros i; cbn [find_last]; [discriminate|]. destruct (find_last SEP s) as [j|] eqn:E.
  - intros [= <-]. destruct (IH j eq_refl) as (a & n & -> & N & ->). exists (c :: a), n. auto.
  - destruct (ascii_dec c SEP) as [->|]; [|discriminate]. intros [= <-]. exists [], s. split; [reflexivity|]. split; [|reflexivity].
    clear IH. induction s as [|x s IH]; [intros []|]. cbn [find_last] in E. destruct (find_last SEP s); [discriminate|]. destruct (ascii_dec x SEP); [discriminate|]. intros [X|X]; [congruence|]. exact (IH eq_refl X).
Qed.

Section Fs.
Variables (cwd : place) (may may_write : place -> bool).
Notation resolve0 root := (resolve false root cwd).
Notation resolve1 root := (resolve true root cwd).

Lemma resolve_true_kind root p q : resolve1 root p = Some q ->
  (exists k, kind_at root q = Some k /\ solid k) /\ resolve0 root p = Some q \/
  (kind_at root q = None /\ resolve0 root p = None /\ exists d n, q = d ++ [n] /\ kind_at root d = Some KDir /\ entry_name n).
Proof.
  intros R. assert (NP : p <> []) by (intros ->; discriminate). rewrite !resolve_eq in * by exact NP.
  destruct (walk_create_kind root MAXLINKS (if absolute p then [] else cwd) (comps p)) with (q := q) as [L|(K & E)]; [intros X; destruct (comps_ne _ X)|apply comps_no_sep|exact R|auto|].
  right. split; [exact K|]. split; [|exact E]. destruct (walk false root MAXLINKS _ (comps p)) as [q'|] eqn:W; [|reflexivity]. exfalso.
  pose proof (walk_false_true _ _ _ _ _ W) as W'. rewrite R in W'. injection W' as <-. destruct (walk_kind root MAXLINKS (if absolute p then [] else cwd) (comps p)) with (q := q) as (k & KQ & _); [intros X; destruct (comps_ne _ X)|exact W|congruence].
Qed.

Lemma file_put root q c : (exists d n, q = d ++ [n] /\ kind_at root d = Some KDir) -> (kind_at root q = None \/ exists o, kind_at root q = Some (KFile o)) ->
  only_change root (put root (removelast q) (last q []) (Some (TFile c))) q (Some (KFile c)).
Proof.
  intros (d & n & -> & KD) K. rewrite removelast_last, last_last.
  assert (A : forall x, get root (d ++ [n]) = Some x -> leaf x). { intros x G. unfold kind_at in K. rewrite G in K. destruct x as [| | |[|]]; try exact I. destruct K as [K|[o K]]; discriminate K. }
  pose proof (put_leaf root d n (Some (TFile c)) KD A) as P. assert (B : forall x, Some (TFile c) = Some x -> leaf x) by (intros x [= <-]; exact I).
  split; [rewrite (P B); destruct (place_dec (d ++ [n]) (d ++ [n])); [reflexivity|congruence]|]. intros x X. rewrite (P B). destruct (place_dec x (d ++ [n])); [contradiction|reflexivity].
Qed.

Lemma file_parent root q c : fs_ok root -> kind_at root q = Some (KFile c) -> exists d n, q = d ++ [n] /\ kind_at root d = Some KDir.
Proof.
  intros [_ KR] K. destruct q as [|x q] using rev_ind; [congruence|]. exists q, x. split; [reflexivity|]. eapply kind_parent; exact K.
Qed.

(** Appending to a file that is there, by any name of it. *)
Lemma append_there root s q c t : (exists d n, q = d ++ [n] /\ kind_at root d = Some KDir) -> resolve1 root s = Some q -> kind_at root q = Some (KFile c) -> may_write q = true ->
  exists root', append_file cwd may may_write root s t = Some root' /\ only_change root root' q (Some (KFile (c ++ t))).
Proof.
  intros P R K M. unfold append_file. rewrite R, K, M. eexists. split; [reflexivity|]. apply file_put; eauto.
Qed.
Lemma append_free root s q t : (exists d n, q = d ++ [n] /\ kind_at root d = Some KDir) -> resolve1 root s = Some q -> kind_at root q = None -> may (removelast q) = true ->
  exists root', append_file cwd may may_write root s t = Some root' /\ only_change root root' q (Some (KFile t)).
Proof.
  intros P R K M. unfold append_file. rewrite R, K, M. eexists. split; [reflexivity|]. apply file_put; eauto.
Qed.

Lemma resolve_shape create A B s : (forall x, same_shape (kind_at A x) (kind_at B x)) -> resolve create A cwd s = resolve create B cwd s.
Proof. intros S. destruct s; [reflexivity|]. rewrite !resolve_eq by discriminate. apply walk_shape. exact S. Qed.

Lemma shape_change A B q c c' : kind_at A q = Some (KFile c) -> only_change A B q (Some (KFile c')) -> forall x, same_shape (kind_at A x) (kind_at B x).
Proof.
  intros K [O1 O2] x. destruct (place_dec x q) as [->|X]; [rewrite K, O1; exact I|]. rewrite O2 by exact X. unfold same_shape. destruct (kind_at A x) as [[| | |]|]; auto.
Qed.

(** Headers, then cells, into a file that is or is not there. *)
Lemma header_there root p q c t : fs_ok root -> resolve0 root p = Some q -> kind_at root q = Some (KFile c) -> may (removelast q) = true ->
  exists root1, WriteAscHeaders cwd may may_write root (GetAbsolutePath (os_of cwd root) p) t = Some root1 /\ only_change root root1 q (Some (KFile t)).
Proof.
  intros OK R K M. unfold WriteAscHeaders. rewrite abs_eq, R. assert (RT : resolve0 root (text q) = Some q) by (eapply resolve_text; [exact OK|exact K|exact I]).
  destruct (delete_file cwd may root (text q) q (KFile c) OK RT K) as (root1 & D & OC); [discriminate|exact M|]. rewrite D. cbn [snd].
  destruct (delete_cases cwd may root (text q) 0 root1 OK D) as [[X _]|(_ & q' & _ & _ & _ & RN)]; [discriminate|]. rewrite abs_none by exact RN.
  assert (R1 : resolve1 root1 (text q) = Some q).
  { rewrite resolve_eq in * by apply text_ne. destruct OC as [O1 O2]. eapply walk_removed; [exact K|discriminate|exact I|exact O1|exact O2|exact RT]. }
  destruct (file_parent root q c OK K) as (d & n & E & KD).
  destruct (append_free root1 (text q) q t) as (root2 & A & OC2); [exists d, n; split; [exact E|]; rewrite (proj2 OC); [exact KD|]|exact R1|exact (proj1 OC)|exact M|].
  { rewrite E. intros X. apply (f_equal (@List.length _)) in X. rewrite app_length in X. cbn in X. lia. }
  exists root2. split; [exact A|]. exact (only_trans _ _ _ _ _ _ OC OC2).
Qed.

Lemma header_free root p q t : fs_ok root -> resolve1 root p = Some q -> kind_at root q = None -> may (removelast q) = true ->
  exists root1, WriteAscHeaders cwd may may_write root (GetAbsolutePath (os_of cwd root) p) t = Some root1 /\ only_change root root1 q (Some (KFile t)).
Proof.
  intros OK R K M. destruct (resolve_true_kind root p q R) as [[(k & K' & _) _]|(_ & RN & d & n & E & KD & EN)]; [congruence|]. unfold WriteAscHeaders. rewrite abs_none by exact RN.
  rewrite delete_eq by exact OK. rewrite RN. cbn [snd]. rewrite abs_none by exact RN. apply append_free; eauto.
Qed.

Lemma pair_written root p q s t1 t2 : fs_ok root -> resolve1 root p = Some q -> (kind_at root q = None \/ exists o, kind_at root q = Some (KFile o)) -> may (removelast q) = true -> may_write q = true ->
  (s = p \/ s = GetAbsolutePath (os_of cwd root) p) ->
  exists root1 root', WriteAscHeaders cwd may may_write root (GetAbsolutePath (os_of cwd root) p) t1 = Some root1 /\ append_file cwd may may_write root1 s t2 = Some root' /\
    resolve0 root' p = Some q /\ only_change root root' q (Some (KFile (t1 ++ t2))).
Proof.
  intros OK R K M MW S.
  assert (P : exists d n, q = d ++ [n] /\ kind_at root d = Some KDir).
  { destruct K as [K|[o K]]; [|eapply file_parent; eauto]. destruct (resolve_true_kind root p q R) as [[(k & K' & _) _]|(_ & _ & d & n & E & KD & _)]; [congruence|eauto]. }
  assert (H : exists root1, WriteAscHeaders cwd may may_write root (GetAbsolutePath (os_of cwd root) p) t1 = Some root1 /\ only_change root root1 q (Some (KFile t1)) /\ resolve0 root1 p = Some q /\ resolve1 root1 s = Some q).
  { destruct K as [K|[o K]].
    - destruct (header_free root p q t1 OK R K M) as (root1 & W & OC). exists root1. split; [exact W|]. split; [exact OC|].
      destruct (resolve_true_kind root p q R) as [[(k & K' & _) _]|(_ & RN & _)]; [congruence|].
      assert (R1 : resolve0 root1 p = Some q). { assert (NP : p <> []) by (intros ->; discriminate). rewrite resolve_eq in * by exact NP. destruct OC as [O1 O2]. eapply walk_filled; [exact K|exact O1|exact I|exact O2|exact R]. }
      split; [exact R1|]. assert (SP : s = p) by (destruct S as [S|S]; [exact S|rewrite S; apply abs_none; exact RN]). subst s.
      assert (NP : p <> []) by (intros ->; discriminate). rewrite resolve_eq in * by exact NP. apply walk_false_true. exact R1.
    - destruct (resolve_true_kind root p q R) as [[_ R0]|(K' & _)]; [|congruence]. destruct (header_there root p q o t1 OK R0 K M) as (root1 & W & OC). exists root1. split; [exact W|]. split; [exact OC|].
      pose proof (shape_change _ _ _ _ _ K OC) as SH. rewrite <- !(resolve_shape _ _ _ _ SH). split; [exact R0|]. destruct S as [->| ->]; [exact R|]. rewrite abs_eq, R0. eapply resolve_text; [exact OK|exact K|exact I]. }
  destruct H as (root1 & W & OC & R1 & RS). destruct P as (d & n & E & KD).
  destruct (append_there root1 s q t1 t2) as (root2 & A & OC2); [exists d, n; split; [exact E|]; rewrite (proj2 OC); [exact KD|]|exact RS|exact (proj1 OC)|exact MW|].
  { rewrite E. intros X. apply (f_equal (@List.length _)) in X. rewrite app_length in X. cbn in X. lia. }
  exists root1, root2. split; [exact W|]. split; [exact A|]. pose proof (shape_change _ _ _ _ _ (proj1 OC) OC2) as SH. rewrite <- (resolve_shape _ _ _ _ SH). split; [exact R1|].
  exact (only_trans _ _ _ _ _ _ OC OC2).
Qed.

(** The same when the entry cannot be removed. *)
Lemma pair_kept root p q s o t1 t2 : fs_ok root -> resolve0 root p = Some q -> kind_at root q = Some (KFile o) -> may (removelast q) = false -> may_write q = true ->
  (s = p \/ s = GetAbsolutePath (os_of cwd root) p) ->
  exists root1 root', WriteAscHeaders cwd may may_write root (GetAbsolutePath (os_of cwd root) p) t1 = Some root1 /\ append_file cwd may may_write root1 s t2 = Some root' /\
    resolve0 root' p = Some q /\ only_change root root' q (Some (KFile (o ++ t1 ++ t2))).
Proof.
  intros OK R K M MW S. unfold WriteAscHeaders. rewrite abs_eq, R. assert (RT : forall cr, resolve cr root cwd (text q) = Some q) by (intros cr; eapply resolve_text; [exact OK|exact K|exact I]).
  rewrite delete_eq by exact OK. rewrite RT. destruct (file_parent root q o OK K) as (d & n & E & KD).
  assert (RM : removable_at may root q = false). { unfold removable_at. destruct q as [|x q]; [reflexivity|]. unfold kind_at in K. destruct (get root (x :: q)) as [[| | |[|]]|]; try discriminate K; exact M. }
  rewrite RM. cbn [snd]. rewrite abs_eq, RT.
  destruct (append_there root (text q) q o t1) as (root1 & A & OC); [eauto|apply RT|exact K|exact MW|]. exists root1.
  pose proof (shape_change _ _ _ _ _ K OC) as SH.
  assert (RS : resolve1 root1 s = Some q).
  { rewrite <- (resolve_shape _ _ _ _ SH). destruct S as [->|S]; [|rewrite S, abs_eq, R; apply RT]. assert (NP : p <> []) by (intros ->; discriminate). rewrite resolve_eq in * by exact NP. apply walk_false_true. exact R. }
  destruct (append_there root1 s q (o ++ t1) t2) as (root2 & A2 & OC2); [exists d, n; split; [exact E|]; rewrite (proj2 OC); [exact KD|]|exact RS|exact (proj1 OC)|exact MW|].
  { rewrite E. intros X. apply (f_equal (@List.length _)) in X. rewrite app_length in X. cbn in X. lia. }
  exists root2. split; [exact A|]. split; [exact A2|]. pose proof (shape_change _ _ _ _ _ (proj1 OC) OC2) as SH2. rewrite <- (resolve_shape _ _ _ _ SH2), <- (resolve_shape _ _ _ _ SH). split; [exact R|].
  rewrite <- app_assoc in OC2. exact (only_trans _ _ _ _ _ _ OC OC2).
Qed.

(** WriteSingleAsc asks for the directory first; a directory that is there stays. *)
Lemma abs_name_dir root p : fs_ok root -> stat cwd root p <> Some KDir -> (exists q, resolve1 root p = Some q) ->
  let dirname := GetPathFromFullName (os_of cwd root) (GetAbsolutePath (os_of cwd root) p) in
  PathExists cwd root dirname = true \/ dirname = [].
Proof.
  intros OK ND [q R]. cbv zeta. unfold GetPathFromFullName. rewrite abs_abs by exact OK. set (a := GetAbsolutePath _ p).
  assert (DA : DirectoryExists (os_of cwd root) a = false). { destruct (DirectoryExists _ a) eqn:X; [|reflexivity]. apply (dir_exists cwd root a OK) in X. unfold a in X. rewrite stat_abs in X by exact OK. contradiction. }
  rewrite DA. destruct (find_last SEP a) as [i|] eqn:F; [|auto]. left. apply find_last_split in F as (pre & n & E & N & ->).
  assert (RA : resolve1 root a = Some q).
  { unfold a. rewrite abs_eq. destruct (resolve0 root p) as [q'|] eqn:R0; [|exact R]. destruct (resolve_true_kind root p q R) as [[(k & K & S) R0']|(K & R0' & _)]; [|congruence].
    rewrite R0 in R0'. injection R0' as ->. eapply resolve_text; eauto. }
  rewrite resolve_eq in RA by (rewrite E; destruct pre; discriminate). rewrite E in RA at 2. rewrite comps_app, (comps_plain n N) in RA. apply walk_prefix in RA as (m & W & KM); [|discriminate].
  assert (DN : firstn (List.length pre + 1) a = pre ++ [SEP]). { rewrite E. replace (pre ++ SEP :: n) with ((pre ++ [SEP]) ++ n) by (rewrite <- app_assoc; reflexivity). replace (List.length pre + 1)%nat with (List.length (pre ++ [SEP])) by (rewrite app_length; reflexivity). rewrite firstn_app, firstn_all, Nat.sub_diag. cbn. apply app_nil_r. }
  rewrite DN. apply (path_exists cwd root _ OK). left. unfold stat. rewrite resolve_eq by (destruct pre; discriminate). rewrite (comps_app pre []). cbn [comps].
  replace (absolute (pre ++ [SEP])) with (absolute a) by (rewrite E; destruct pre; reflexivity).
  rewrite (walk_then false root [[]] (Some m) MAXLINKS _ (comps pre) m W); [exact KM|]. intros l. apply walk_empties; [exact KM|repeat constructor].
Qed.

Lemma single_eq root p t1 t2 : fs_ok root -> stat cwd root p <> Some KDir -> (exists q, resolve1 root p = Some q) ->
  WriteSingleAsc cwd may may_write root p t1 t2 =
  match WriteAscHeaders cwd may may_write root (GetAbsolutePath (os_of cwd root) p) t1 with Some root1 => append_file cwd may may_write root1 (GetAbsolutePath (os_of cwd root) p) t2 | None => None end.
Proof.
  intros OK ND R. unfold WriteSingleAsc. destruct (abs_name_dir root p OK ND R) as [E|E]; [rewrite E; reflexivity|]. rewrite E. reflexivity.
Qed.

(** A name whose directory is missing while the directory above is there. *)
Lemma absolute_in dp n : dp <> [] -> absolute (in_dir dp n) = absolute dp.
Proof. destruct dp; [congruence|reflexivity]. Qed.
Lemma in_dir_ne dp n : in_dir dp n <> [].
Proof. destruct dp; discriminate. Qed.

Lemma fs_ok_change root root' q k : fs_ok root -> only_change root root' q (Some k) -> Forall entry_name q -> q <> [] -> fs_ok root'.
Proof.
  intros [NO KR] [O1 O2] F NQ. split; [|rewrite O2; [exact KR|auto]]. intros p j K. destruct (place_dec p q) as [->|X]; [exact F|]. rewrite O2 in K by exact X. eapply NO; exact K.
Qed.

Lemma missing_dir_none create root dp n1 n2 e : dp <> [] -> entry_name n1 -> entry_name n2 -> resolve0 root dp = Some e -> kind_at root e = Some KDir -> kind_at root (e ++ [n1]) = None ->
  resolve create root cwd (in_dir (in_dir dp n1) n2) = None.
Proof.
  intros N E1 E2 R K KN. rewrite in_dir_resolve by (try apply in_dir_ne; assumption). rewrite absolute_in by exact N. unfold in_dir. rewrite comps_app, (comps_plain n1) by apply E1.
  rewrite <- app_assoc. rewrite resolve_eq in R by exact N. eapply walk_then; [exact R|]. intros l. cbn [app]. rewrite walk_unfold, K. destruct E1 as (A1 & A2 & A3 & _). apply beqb_false in A1, A2, A3. rewrite A1, A2, A3. cbn [orb]. rewrite KN. reflexivity.
Qed.

Lemma single_new_dir root dp n1 n2 e t1 t2 : fs_ok root -> dp <> [] -> entry_name n1 -> entry_name n2 -> resolve0 root dp = Some e -> kind_at root e = Some KDir -> kind_at root (e ++ [n1]) = None ->
  may e = true -> may (e ++ [n1]) = true -> may_write (e ++ [n1; n2]) = true ->
  OutputAscFile1 cwd may may_write root (in_dir (in_dir dp n1) n2) t1 t2 = None /\
  exists root', WriteSingleAsc cwd may may_write root (in_dir (in_dir dp n1) n2) t1 t2 = Some root' /\ kind_at root' (e ++ [n1]) = Some KDir /\ kind_at root' (e ++ [n1; n2]) = Some (KFile (t1 ++ t2)) /\
    (forall x, x <> e ++ [n1] -> x <> e ++ [n1; n2] -> kind_at root' x = kind_at root x).
Proof.
  intros OK N E1 E2 R K KN M1 M2 MW. set (p := in_dir (in_dir dp n1) n2). pose proof (fun cr => missing_dir_none cr root dp n1 n2 e N E1 E2 R K KN) as RN. fold p in RN.
  split.
  { unfold OutputAscFile1, WriteAscHeaders. rewrite abs_none by apply RN. rewrite delete_eq by exact OK. rewrite RN. cbn [snd]. rewrite abs_none by apply RN. unfold append_file. rewrite RN. reflexivity. }
  unfold WriteSingleAsc. rewrite abs_none by apply RN.
  assert (GP : GetPathFromFullName (os_of cwd root) p = in_dir dp n1 ++ [SEP]).
  { unfold GetPathFromFullName. rewrite abs_none by apply RN.
    assert (DP : DirectoryExists (os_of cwd root) p = false). { destruct (DirectoryExists _ p) eqn:X; [|reflexivity]. apply (dir_exists cwd root p OK) in X. unfold stat in X. rewrite RN in X. discriminate. }
    rewrite DP. unfold p at 1. unfold in_dir at 1. rewrite find_last_some by apply E2. unfold p, in_dir at 2.
    replace (in_dir dp n1 ++ SEP :: n2) with ((in_dir dp n1 ++ [SEP]) ++ n2) by (rewrite <- app_assoc; reflexivity). replace (List.length (in_dir dp n1) + 1)%nat with (List.length (in_dir dp n1 ++ [SEP])) by (rewrite app_length; reflexivity).
    rewrite firstn_app, firstn_all, Nat.sub_diag. cbn [firstn]. apply app_nil_r. }
  rewrite GP. set (dn := in_dir dp n1 ++ [SEP]). assert (CD : comps dn = (comps dp ++ [n1]) ++ [[]]).
  { unfold dn. change [SEP] with (SEP :: []). rewrite comps_app. unfold in_dir. rewrite comps_app, (comps_plain n1) by apply E1. reflexivity. }
  assert (ND : dn <> []) by (unfold dn; destruct (in_dir dp n1); discriminate). assert (AD : absolute dn = absolute dp) by (unfold dn, in_dir; destruct dp; [congruence|reflexivity]).
  assert (RD : resolve0 root dn = None).
  { rewrite resolve_eq by exact ND. rewrite CD, AD, <- app_assoc. rewrite resolve_eq in R by exact N. eapply walk_then; [exact R|]. intros l. cbn [app]. rewrite walk_unfold, K. destruct E1 as (A1 & A2 & A3 & _). apply beqb_false in A1, A2, A3. rewrite A1, A2, A3. cbn [orb]. rewrite KN. reflexivity. }
  assert (PE : PathExists cwd root dn = false). { destruct (PathExists cwd root dn) eqn:X; [|reflexivity]. apply (path_exists cwd root dn OK) in X. unfold stat in X. rewrite RD in X. destruct X as [X|[? X]]; discriminate. }
  rewrite PE. unfold MakeDirectory. rewrite (not_there cwd root dn OK RD), (abs_none cwd root dn RD).
  assert (MK : mkdir cwd may root dn = (true, put root e n1 (Some (TDir [])))).
  { unfold mkdir. rewrite CD, rev_app_distr. cbn [rev app drop_empty]. rewrite rev_app_distr. cbn [rev app]. destruct E1 as (A1 & A2 & A3 & A4). destruct n1 as [|c n1]; [congruence|]. cbn [drop_empty].
    unfold dot_name. apply beqb_false in A1, A2, A3. rewrite A1, A2, A3. cbn [orb]. rewrite rev_involutive, AD. rewrite resolve_eq in R by exact N. rewrite R, K, KN, M1. reflexivity. }
  rewrite MK. cbn [snd]. pose proof (dir_put root e n1 K KN) as OC. set (root0 := put root e n1 _) in *.
  assert (FE : Forall entry_name (e ++ [n1])) by (apply Forall_app; split; [apply (proj1 OK _ _ K)|auto]).
  assert (OK0 : fs_ok root0) by (eapply fs_ok_change; [exact OK|exact OC|exact FE|destruct e; discriminate]).
  pose proof (mono_new _ _ _ _ KN OC) as MO.
  assert (EE : e ++ [n1; n2] = (e ++ [n1]) ++ [n2]) by (rewrite <- app_assoc; reflexivity).
  assert (KF : kind_at root0 (e ++ [n1; n2]) = None).
  { rewrite (proj2 OC). - destruct (kind_at root (e ++ [n1; n2])) eqn:X; [|reflexivity]. rewrite EE in X. apply kind_parent in X. congruence.
    - intros X. rewrite EE in X. apply (f_equal (@List.length _)) in X. rewrite !app_length in X. cbn in X. lia. }
  assert (R0 : resolve0 root0 (in_dir dp n1) = Some (e ++ [n1])).
  { rewrite in_dir_resolve by assumption. rewrite resolve_eq in R by exact N. eapply walk_then; [eapply walk_mono; [exact MO|exact R]|]. intros l. eapply walk_one; [apply MO; exact K|exact E1|exact (proj1 OC)|exact I]. }
  assert (R1 : resolve1 root0 p = Some (e ++ [n1; n2])).
  { unfold p. rewrite in_dir_resolve by (try apply in_dir_ne; assumption). rewrite resolve_eq in R0 by apply in_dir_ne. eapply walk_then; [exact R0|]. intros l. rewrite EE. apply (walk_none true); [exact (proj1 OC)|exact E2|rewrite <- EE; exact KF]. }
  assert (RP0 : resolve0 root0 p = None) by (destruct (resolve_true_kind root0 p _ R1) as [[(k & X & _) _]|(_ & X & _)]; [congruence|exact X]).
  destruct (pair_written root0 p (e ++ [n1; n2]) p t1 t2 OK0 R1) as (root1 & root' & W & A & _ & OC1); [auto|rewrite EE, removelast_last; exact M2|exact MW|auto|].
  rewrite abs_none in W by exact RP0. rewrite W. exists root'. split; [exact A|]. destruct OC1 as [O1 O2]. destruct OC as [P1 P2].
  split; [rewrite O2; [exact P1|]; rewrite EE; intros X; apply (f_equal (@List.length _)) in X; rewrite !app_length in X; cbn in X; lia|]. split; [exact O1|]. intros x X1 X2. rewrite O2, P2; auto.
Qed.
End Fs.
