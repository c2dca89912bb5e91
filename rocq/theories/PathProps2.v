(** Directories as a whole: deleting, cleaning and listing them. *)
From Coq Require Import ZArith Lia Ascii String List Bool.
From Verif Require Import Base ListLib StrModel StrSpec StrProofs MapModel FsModel FsSpec FsProofs PathModel PathModel2 PathSpec PathProofs PathProofs2 PathProofs3 PathProofs4 PathProofs5 PathProofs6 PathProofs7 PathProps.
Import ListNotations.
Open Scope Z_scope.

(** * C142: deleting a directory *)

(** Whatever may be listed and removed: a name that stands for no directory changes
    nothing; else places are only removed, and only at or below the directory the name
    leads to. What links in it lead to stays. *)
Theorem C142_outside : forall cwd may may_read fuel del_subdirs root p root', fs_ok root -> DeleteDirectory cwd may may_read fuel del_subdirs root p = Some root' ->
  fs_ok root' /\ (root' = root \/ exists q, resolve false root cwd p = Some q /\ kind_at root q = Some KDir /\ only_removed root root' q).
Proof. intros cwd may may_read fuel del_subdirs root p root' OK E. exact (delete_safe cwd may may_read del_subdirs fuel root p root' OK E). Qed.
Print Assumptions C142_outside.

(** It comes to an end, after as many nested calls as the tree is deep. *)
Theorem C142_ends : forall cwd may may_read fuel del_subdirs root p, fs_ok root -> (0 < fuel)%nat ->
  (forall q, resolve false root cwd p = Some q -> kind_at root q = Some KDir -> within root q fuel) ->
  exists root', DeleteDirectory cwd may may_read fuel del_subdirs root p = Some root'.
Proof. intros cwd may may_read fuel del_subdirs root p OK F L. apply delete_ends; auto. Qed.
Print Assumptions C142_ends.

(** With subdirectories, where all may be listed and changed: nothing is left at or
    below the directory. *)
Theorem C142_gone : forall cwd may may_read fuel root p q, fs_ok root -> resolve false root cwd p = Some q -> kind_at root q = Some KDir -> q <> [] ->
  open_below may may_read root q -> may (removelast q) = true -> within root q fuel ->
  exists root', DeleteDirectory cwd may may_read fuel true root p = Some root' /\
    (forall x, below q x -> kind_at root' x = None) /\ (forall x, ~ below q x -> kind_at root' x = kind_at root x).
Proof.
  intros cwd may may_read fuel root p q OK R K NQ O M W.
  assert (F : (0 < fuel)%nat) by (specialize (W []); rewrite app_nil_r in W; cbn in W; apply W; congruence).
  destruct (C142_ends cwd may may_read fuel true root p OK F) as (root' & E). { intros q' R' _. rewrite R in R'. injection R' as <-. exact W. }
  exists root'. split; [exact E|]. split; [eapply delete_all; eauto|]. intros x NB.
  destruct (C142_outside _ _ _ _ _ _ _ _ OK E) as (_ & [->|(q' & R' & _ & OR)]); [reflexivity|]. rewrite R in R'. injection R' as <-. destruct (OR x) as [Y|[_ B]]; [exact Y|contradiction].
Qed.
Print Assumptions C142_gone.

(** Without subdirectories: those with entries stay as they are, all else goes, and the
    directory itself if nothing stayed. *)
Theorem C142_shallow : forall cwd may may_read fuel root p q, fs_ok root -> resolve false root cwd p = Some q -> kind_at root q = Some KDir -> q <> [] ->
  may q = true -> may_read q = true -> may (removelast q) = true ->
  exists root', DeleteDirectory cwd may may_read (S fuel) false root p = Some root' /\
    (forall n x, filled_dir root (q ++ [n]) -> kind_at root' (q ++ n :: x) = kind_at root (q ++ n :: x)) /\
    (forall n x, ~ filled_dir root (q ++ [n]) -> kind_at root' (q ++ n :: x) = None) /\
    ((exists n, filled_dir root (q ++ [n])) -> kind_at root' q = Some KDir) /\ ((forall n, ~ filled_dir root (q ++ [n])) -> kind_at root' q = None).
Proof. intros cwd may may_read fuel root p q. apply delete_shallow. Qed.
Print Assumptions C142_shallow.

(** A link to a directory: its target goes, the link stays and leads nowhere. *)
Theorem C142_link_refuted : forall cwd may may_read fuel root dp n e t q, fs_ok root -> dp <> [] -> entry_name n ->
  resolve false root cwd dp = Some e -> kind_at root (e ++ [n]) = Some (KLink t) ->
  resolve false root cwd (in_dir dp n) = Some q -> kind_at root q = Some KDir -> q <> [] -> ~ below q (e ++ [n]) ->
  open_below may may_read root q -> may (removelast q) = true -> within root q fuel ->
  exists root', DeleteDirectory cwd may may_read fuel true root (in_dir dp n) = Some root' /\ kind_at root' (e ++ [n]) = Some (KLink t) /\ kind_at root' q = None.
Proof.
  intros cwd may may_read fuel root dp n e t q OK ND EN RD KL R K NQ NB O M W.
  destruct (C142_gone cwd may may_read fuel root _ q OK R K NQ O M W) as (root' & E & A & B). exists root'. split; [exact E|]. split; [rewrite B; assumption|]. apply A, below_refl.
Qed.
Print Assumptions C142_link_refuted.

(** A directory that may not be listed: nothing is removed, though the answer is
    [true] as always. *)
Theorem C142_unlisted_refuted : forall cwd may may_read fuel del_subdirs root p q, fs_ok root -> resolve false root cwd p = Some q -> kind_at root q = Some KDir ->
  may_read q = false -> DeleteDirectory cwd may may_read (S fuel) del_subdirs root p = Some root.
Proof.
  intros cwd may may_read fuel del_subdirs root p q OK R K MR. cbn [DeleteDirectory]. rewrite (dir_there cwd root p q OK R K). cbn [negb].
  destruct (kind_dir _ _ K) as (es & G). rewrite abs_eq, R, (entries_text cwd may_read root q es OK G), MR. reflexivity.
Qed.
Print Assumptions C142_unlisted_refuted.

(** * C143: cleaning a directory *)

(** Whatever may be listed and removed: the directory stays and places are only removed
    below it. *)
Theorem C143_outside : forall cwd may may_read root p q b root', fs_ok root -> resolve false root cwd p = Some q -> kind_at root q = Some KDir ->
  CleanDirectory cwd may may_read root p = (b, root') -> fs_ok root' /\ only_removed root root' q /\ kind_at root' q = Some KDir.
Proof. intros cwd may may_read root p q b root'. apply clean_safe. Qed.
Print Assumptions C143_outside.

(** Where the directory may be listed and changed: exactly the hidden entries and the
    subdirectories with entries stay, with all they hold; the answer is [true] if and
    only if no visible subdirectory has entries. *)
Theorem C143_left : forall cwd may may_read root p q es b root', fs_ok root -> resolve false root cwd p = Some q -> get root q = Some (TDir es) -> may_read q = true -> may q = true ->
  CleanDirectory cwd may may_read root p = (b, root') ->
  (forall n r, hidden n = true \/ filled_dir root (q ++ [n]) -> kind_at root' (q ++ n :: r) = kind_at root (q ++ n :: r)) /\
  (forall n r, hidden n = false -> ~ filled_dir root (q ++ [n]) -> kind_at root' (q ++ n :: r) = None) /\
  (NoDup (map fst es) -> (b = true <-> forall n, hidden n = false -> ~ filled_dir root (q ++ [n]))).
Proof. intros cwd may may_read root p q es b root'. apply clean_left. Qed.
Print Assumptions C143_left.

(** Where there is no directory, one is made if MakeDirectory can (C138). *)
Theorem C143_missing : forall cwd may may_read root p, fs_ok root -> stat cwd root p <> Some KDir -> CleanDirectory cwd may may_read root p = MakeDirectory cwd may root p.
Proof. intros cwd may may_read root p. apply clean_make. Qed.
Print Assumptions C143_missing.

(** * C144: listing a directory *)

(** The visible entries whose suffix fits, the suffix being that of what the bare name
    leads to in the working directory. *)
Theorem C144_listed : forall cwd may_read root p q expr f, fs_ok root -> resolve false root cwd p = Some q -> kind_at root q = Some KDir ->
  In f (FindFiles cwd may_read root p expr) <->
  may_read q = true /\ exists n, kind_at root (q ++ [n]) <> None /\ f = in_dir (text q) n /\ ~ (exists t, n = "."%char :: t) /\
    ((exists a b, expr = a ++ GetSuffix (os_of cwd root) n ++ b) \/ Forall2 same_letter (GetSuffix (os_of cwd root) n) expr \/
     Forall2 same_letter expr (str ".*") \/ Forall2 same_letter expr (str "*.*")).
Proof.
  intros cwd may_read root p q expr f OK R K. destruct (kind_dir _ _ K) as (es & G). unfold FindFiles. rewrite abs_eq, R, (entries_text cwd may_read root q es OK G).
  destruct (may_read q); [|split; [intros []|intros [X _]; discriminate]]. rewrite in_map_iff. split.
  - intros (n & <- & I). apply filter_In in I as [I M]. apply andb_prop in M as [H M]. split; [reflexivity|]. exists n. split; [apply (names_of_dir _ _ _ G); exact I|]. split; [reflexivity|].
    split; [|apply entry_matches_iff; exact M]. intros (t & ->). cbn in H. discriminate.
  - intros (_ & n & KN & -> & H & M). exists n. split; [reflexivity|]. apply filter_In. split; [apply (names_of_dir _ _ _ G); exact KN|]. apply andb_true_intro. split; [|apply entry_matches_iff; exact M].
    destruct n as [|c n]; [reflexivity|]. cbn. destruct (ascii_dec c DOT) as [->|]; [|reflexivity]. exfalso. apply H. exists n. reflexivity.
Qed.
Print Assumptions C144_listed.

(** A name that stands for nothing in the working directory has its own suffix. *)
Theorem C144_suffix : forall cwd root core suf, ~ In "."%char suf -> suf <> [] ->
  (resolve false root cwd (core ++ "."%char :: suf) = None -> GetSuffix (os_of cwd root) (core ++ "."%char :: suf) = suf) /\
  (forall q core' suf', resolve false root cwd (core ++ "."%char :: suf) = Some q -> text q = core' ++ "."%char :: suf' -> ~ In "."%char suf' -> suf' <> [] ->
     GetSuffix (os_of cwd root) (core ++ "."%char :: suf) = suf').
Proof.
  intros cwd root core suf ND NE. split.
  - intros R. eapply GetSuffix_dot; [right|reflexivity|exact ND|exact NE]. cbn. rewrite R. auto.
  - intros q core' suf' R T ND' NE'. eapply GetSuffix_dot; [left|exact T|exact ND'|exact NE']. cbn. rewrite R. reflexivity.
Qed.
Print Assumptions C144_suffix.

(** So the same directory is listed differently in different working directories: a
    file of the wanted suffix is left out where its name is that of a link to a file of
    another suffix. *)
Theorem C144_cwd_refuted : forall may_read root p q expr core suf cwd cwd' core' suf' c, fs_ok root ->
  resolve false root cwd p = Some q -> resolve false root cwd' p = Some q -> kind_at root q = Some KDir -> may_read q = true ->
  let n : bytes := core ++ "."%char :: suf in let m : bytes := core' ++ "."%char :: suf' in
  expr = str "*." ++ suf -> ~ In "."%char suf -> suf <> [] -> hd_error n <> Some "."%char -> kind_at root (q ++ [n]) <> None ->
  resolve false root cwd n = None ->
  kind_at root cwd' = Some KDir -> kind_at root (cwd' ++ [n]) = Some (KLink m) -> kind_at root (cwd' ++ [m]) = Some (KFile c) ->
  ~ In "."%char suf' -> suf' <> [] -> ~ (exists a b, expr = a ++ suf' ++ b) -> ~ Forall2 same_letter suf' expr -> ~ Forall2 same_letter suf (str "*") ->
  In (in_dir (text q) n) (FindFiles cwd may_read root p expr) /\ ~ In (in_dir (text q) n) (FindFiles cwd' may_read root p expr).
Proof.
  intros may_read root p q expr core suf cwd cwd' core' suf' c OK R R' K MR n m EX ND NE HD KN RN KC KL KM ND' NE' NS NF NW.
  assert (HN : ~ (exists t, n = "."%char :: t)) by (intros (t & E); apply HD; rewrite E; reflexivity). split.
  - apply (C144_listed cwd may_read root p q expr _ OK R K). split; [exact MR|]. exists n. split; [exact KN|]. split; [reflexivity|]. split; [exact HN|]. left.
    exists (str "*."), []. destruct (C144_suffix cwd root core suf ND NE) as [S _]. fold n in S. rewrite (S RN), app_nil_r. exact EX.
  - intros I. apply (C144_listed cwd' may_read root p q expr _ OK R' K) in I as (_ & n' & _ & EN & _ & M). apply app_inv_head in EN. injection EN as <-.
    assert (NM : entry_name n /\ entry_name m).
    { pose proof OK as [NO _]. pose proof (NO _ _ KL) as A. pose proof (NO _ _ KM) as B. apply Forall_app in A as [_ A], B as [_ B]. inversion A; inversion B; auto. }
    destruct NM as [EN EM]. assert (RL : resolve false root cwd' n = Some (cwd' ++ [m])).
    { rewrite resolve_eq by apply EN. assert (AN : forall x, entry_name x -> absolute x = false).
      { intros [|h x] (X1 & _ & _ & X4); [reflexivity|]. cbn. destruct (ascii_dec h SEP) as [->|]; [|reflexivity]. exfalso. apply X4. left. reflexivity. }
      rewrite (AN n EN), comps_plain by apply EN. rewrite walk_unfold, KC. pose proof EN as (N1 & N2 & N3 & _). apply beqb_false in N1, N2, N3. rewrite N1, N2, N3. cbn [orb].
      rewrite KL, (AN m EM), comps_plain by apply EM. cbn [app]. eapply walk_one; [exact KC|exact EM|exact KM|exact Logic.I]. }
    assert (SX : GetSuffix (os_of cwd' root) n = suf').
    { destruct (C144_suffix cwd' root core suf ND NE) as [_ S]. eapply (S (cwd' ++ [m]) (concat (map (fun x => SEP :: x) cwd') ++ SEP :: core')); [exact RL| |exact ND'|exact NE'].
      unfold text. destruct (cwd' ++ [m]) eqn:X; [destruct cwd'; discriminate|]. rewrite <- X, map_app, concat_app. cbn [map concat]. unfold m. rewrite app_nil_r, <- app_assoc. reflexivity. }
    rewrite SX in M. destruct M as [M|[M|[M|M]]]; [contradiction|contradiction| |].
    + rewrite EX in M. inversion M as [|? ? ? ? A]; subst. destruct A as [A|[[A _]|[A _]]]; [discriminate A|vm_compute in A; destruct A as [A _]; apply A; reflexivity|vm_compute in A; destruct A as [A _]; apply A; reflexivity].
    + rewrite EX in M. cbn in M. inversion M as [|? ? ? ? _ M1]; subst. inversion M1 as [|? ? ? ? _ M2]; subst. contradiction.
Qed.
Print Assumptions C144_cwd_refuted.

(** * Examples *)

Definition ex_read (q : place) : bool := match q with n :: _ => negb (beqb n (str "x")) | [] => true end.
Definition ex_tree2 : tree :=
  TDir [(str "w", TDir [(str "a.txt", TLink (str "b.csv")); (str "b.csv", TFile []); (str "in", TLink (str "../d"))]);
        (str "d", TDir [(str "a.txt", TFile []); (str ".h", TFile []); (str "up", TLink (str "../w")); (str "e", TDir []);
                        (str "s", TDir [(str "f", TFile []); (str "t", TDir [(str "out", TLink (str "/w"))])])]);
        (str "x", TDir [(str "f", TFile [])])].
Definition ex_may2 (d : place) : bool := true.
Lemma ex_tree2_ok : fs_ok ex_tree2.
Proof. apply good_ok. vm_compute. reflexivity. Qed.
Definition kinds (t : option tree) (ps : list place) : list bool := match t with Some r => map (fun p => match kind_at r p with Some _ => true | None => false end) ps | None => [] end.
Definition ex_places : list place := [[str "w"; str "a.txt"]; [str "w"; str "in"]; [str "d"]; [str "d"; str ".h"]; [str "d"; str "s"; str "t"]; [str "d"; str "up"]; [str "d"; str "e"]].

Example C142_ex :
  kinds (DeleteDirectory [str "w"] ex_may2 ex_read 4 true ex_tree2 (str "in")) ex_places = [true; true; false; false; false; false; false] /\
  kinds (DeleteDirectory [str "w"] ex_may2 ex_read 1 false ex_tree2 (str "../d")) ex_places = [true; true; true; false; true; false; false] /\
  DeleteDirectory [str "w"] ex_may2 ex_read 3 true ex_tree2 (str "/x") = Some ex_tree2 /\
  resolve false ex_tree2 [str "w"] (str "in") = Some [str "d"] /\ open_below ex_may2 ex_read ex_tree2 [str "d"] /\ ~ below [str "d"] [str "w"; str "in"].
Proof.
  do 4 (split; [vm_compute; reflexivity|]). split; [|intros (r & E); discriminate E]. intros x _. split; reflexivity.
Qed.

(** The depth of the directory of the example. *)
Lemma ex_within : within ex_tree2 [str "d"] 4.
Proof.
  intros x H. cbn [app] in H.
  destruct x as [|a [|b [|c [|e x]]]]; cbn [List.length]; try lia. exfalso. apply H. unfold kind_at. change (get ex_tree2 (str "d" :: a :: b :: c :: e :: x)) with
    (get (TDir [(str "a.txt", TFile []); (str ".h", TFile []); (str "up", TLink (str "../w")); (str "e", TDir []);
                        (str "s", TDir [(str "f", TFile []); (str "t", TDir [(str "out", TLink (str "/w"))])])]) (a :: b :: c :: e :: x)).
  cbn [get lookup fst snd]. repeat match goal with |- context [if ?d then _ else _] => destruct d; cbn [get lookup fst snd]; try reflexivity end.
Qed.

Example C143_ex :
  (let res := CleanDirectory [str "w"] ex_may2 ex_read ex_tree2 (str "in") in
   fst res = false /\ kinds (Some (snd res)) ex_places = [true; true; true; true; true; false; false]) /\
  fst (CleanDirectory [str "w"] ex_may2 ex_read ex_tree2 (str ".")) = true /\ fst (CleanDirectory [str "w"] ex_may2 ex_read ex_tree2 (str "/x")) = true /\
  kind_at (snd (CleanDirectory [str "w"] ex_may2 ex_read ex_tree2 (str "/x"))) [str "x"; str "f"] = Some (KFile []) /\
  filled_dir ex_tree2 [str "d"; str "s"].
Proof. repeat split; try (vm_compute; reflexivity). exists (str "f"). vm_compute. discriminate. Qed.

Example C144_ex :
  FindFiles [str "d"] ex_read ex_tree2 (str "/d") (str "*.txt") = [str "/d/a.txt"; str "/d/up"; str "/d/e"; str "/d/s"] /\
  FindFiles [str "w"] ex_read ex_tree2 (str "/d") (str "*.txt") = [str "/d/up"; str "/d/e"; str "/d/s"].
Proof. split; vm_compute; reflexivity. Qed.
