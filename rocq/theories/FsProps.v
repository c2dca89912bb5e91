(** Property theorems about src/utils_filesystem (C17, C18, C66, C67). *)
From Coq Require Import ZArith Ascii String List Bool Lia Arith.
From Verif Require Import Base StrModel StrSpec FsModel FsSpec FsProofs.
Import ListNotations.
Open Scope nat_scope.

(** ** C17 *)
(** A path d/core.suf (the core may contain dots, the suffix may not) that is
    not a directory falls into these pieces and is recomposed from them. *)
Theorem C17_pieces : forall (o : os) (f a d core suf : bytes),
  resolves o f a -> not_directory o a -> path_parts a d core suf -> suf <> [] ->
  GetPathFromFullName o f = d ++ ["/"%char] /\ GetCoreFileName o f = core /\ GetSuffix o f = suf /\
  GetPathFromFullName o f ++ GetCoreFileName o f ++ "."%char :: GetSuffix o f = a.
Proof.
  intros o f a d core suf R N P H. split; [exact (GetPath_parts o f a d core suf R N P)|].
  split; [exact (GetCore_parts o f a d core suf R P)|].
  split; [exact (GetSuffix_parts o f a d core suf R P H)|exact (recompose o f a d core suf R N P H)].
Qed.
Print Assumptions C17_pieces.

Theorem C17_replace_suffix : forall (o : os) (f a d core suf new : bytes),
  resolves o f a -> not_directory o a -> path_parts a d core suf -> suf <> [] ->
  ReplaceSuffix o f new = d ++ "/"%char :: core ++ "."%char :: new.
Proof. exact ReplaceSuffix_parts. Qed.
Print Assumptions C17_replace_suffix.

(** Appending and prefixing change only the core name. *)
Theorem C17_append_prefix : forall (o : os) (f a d core suf e : bytes) (deli : ascii),
  resolves o f a -> not_directory o a -> path_parts a d core suf -> suf <> [] -> dir_form o d ->
  AppendCoreFileName o f e deli = d ++ "/"%char :: (core ++ deli :: e) ++ "."%char :: suf /\
  PrefixCoreFileName o f e deli = d ++ "/"%char :: (e ++ deli :: core) ++ "."%char :: suf.
Proof.
  intros o f a d core suf e deli R N P H D. split; [exact (Append_parts o f a d core suf e deli R N P H D)|].
  exact (Prefix_parts o f a d core suf e deli R N P H D).
Qed.
Print Assumptions C17_append_prefix.

(** Nothing on disk, no directories: the path questions answer "unknown". *)
Definition bare_os : os := {| realpath := fun _ => None; isdir := fun _ => false |}.

(** A file without a suffix in a directory with a dot: the "suffix" contains the
    separator, and ReplaceSuffix does not refuse. *)
Theorem C17_directory_dot_refuted :
  GetSuffix bare_os (str "/data.v1/dem") = str "v1/dem" /\
  ReplaceSuffix bare_os (str "/data.v1/dem") (str "txt") = str "/data.v1/dem.txt" /\
  ReplaceSuffix bare_os (str "/data/dem") (str "txt") = [].
Proof. vm_compute. auto. Qed.
Print Assumptions C17_directory_dot_refuted.

(** An empty suffix: the previous piece is reported. *)
Theorem C17_empty_suffix_refuted :
  GetSuffix bare_os (str "/data/dem.v1.") = str "v1".
Proof. vm_compute. reflexivity. Qed.
Print Assumptions C17_empty_suffix_refuted.

(** An existing directory: the pieces do not recompose. *)
Theorem C17_existing_directory_refuted : exists (o : os) (f : bytes),
  (forall p, realpath o p = None) /\ isdir o f = true /\
  GetPathFromFullName o f ++ GetCoreFileName o f ++ "."%char :: GetSuffix o f = str "/data.d" ++ str "data.d" /\
  f = str "/data.d".
Proof.
  exists {| realpath := fun _ => None; isdir := fun p => beqb p (str "/data.d") |}, (str "/data.d").
  vm_compute. auto.
Qed.
Print Assumptions C17_existing_directory_refuted.

Example C17_ex : path_parts (str "/a.b/c.d.tif") (str "/a.b") (str "c.d") (str "tif") /\
  resolves bare_os (str "/a.b/c.d.tif") (str "/a.b/c.d.tif") /\ not_directory bare_os (str "/a.b/c.d.tif") /\
  dir_form bare_os (str "/a.b") /\
  AppendCoreFileName bare_os (str "/a.b/c.d.tif") (str "1") "_" = str "/a.b/c.d_1.tif".
Proof.
  split.
  { split; [reflexivity|]. cbn. repeat split; intros H; repeat (destruct H as [H|H]; [discriminate H|]); exact H. }
  split; [right; split; reflexivity|]. split; [intros a' _; reflexivity|].
  split; [|vm_compute; reflexivity].
  exists (str "/a.b/"). split; [right; split; reflexivity|left; reflexivity].
Qed.

(** ** C18 *)
(** The file is any sequence of lines; the loop ends within one step per line. *)
Theorem C18_load : forall (ls prior : list bytes) (fuel : nat),
  ls <> [] -> Forall (fun l => ~ In "010"%char l) ls -> length ls <= fuel ->
  exists out, kept ls out /\
    LoadPlainTextFile fuel (Some {| content := join "010" ls; read_error := false |}) prior = Some (true, prior ++ out).
Proof.
  intros ls prior fuel Hn HF Hf. destruct (load_loop_ok ls fuel prior Hn HF Hf) as [out [K E]].
  exists out. split; [exact K|]. cbn [LoadPlainTextFile]. now rewrite E.
Qed.
Print Assumptions C18_load.

(** [kept] determines its result. *)
Theorem C18_kept_unique : forall ls a b, kept ls a -> kept ls b -> a = b.
Proof. exact kept_det. Qed.
Print Assumptions C18_kept_unique.

(** A file that cannot be opened: false, and the vector is untouched. *)
Theorem C18_missing : forall fuel prior, LoadPlainTextFile fuel None prior = Some (false, prior).
Proof. reflexivity. Qed.
Print Assumptions C18_missing.

(** A source whose reading fails (a directory opens, reading it fails): the loop
    never ends, whatever could be read before. *)
Theorem C18_read_error_refuted : forall (s : bytes) (prior : list bytes) (fuel : nat),
  LoadPlainTextFile fuel (Some {| content := s; read_error := true |}) prior = None.
Proof. intros. cbn [LoadPlainTextFile]. now rewrite load_loop_error. Qed.
Print Assumptions C18_read_error_refuted.

Example C18_ex :
  LoadPlainTextFile 5 (Some {| content := join "010" [str " a b "; str "# c"; str ""; str "#"; str "d"]; read_error := false |}) [str "x"]
  = Some (true, [str "x"; str "a b"; str "d"]).
Proof. vm_compute. reflexivity. Qed.

(** ** C66 *)
(** What FindFiles lists: visible entries whose suffix occurs inside the
    expression, or equals it up to case, or everything visible for the two
    catch-all expressions. *)
Theorem C66_listed : forall (o : os) (path expr p : bytes) (r w : bool) (es : list (bytes * node)),
  In p (FindFiles o path (Dir r w es) expr) <->
  r = true /\ exists n c, In (n, c) es /\ p = path ++ "/"%char :: n /\ ~ (exists t, n = "."%char :: t) /\
    ((exists a b, expr = a ++ GetSuffix o n ++ b) \/ Forall2 same_letter (GetSuffix o n) expr \/
     Forall2 same_letter expr (str ".*") \/ Forall2 same_letter expr (str "*.*")).
Proof. intros. apply FindFiles_iff. Qed.
Print Assumptions C66_listed.

(** In particular every visible file carrying the wanted suffix is found. *)
Theorem C66_complete : forall (o : os) (path expr core suf a b : bytes) (w : bool) (es : list (bytes * node)) (c : node),
  In (core ++ "."%char :: suf, c) es -> core <> [] -> hd_error core <> Some "."%char ->
  realpath o (core ++ "."%char :: suf) = None -> ~ In "."%char suf -> suf <> [] -> expr = a ++ suf ++ b ->
  In (path ++ "/"%char :: core ++ "."%char :: suf) (FindFiles o path (Dir true w es) expr).
Proof.
  intros o path expr core suf a b w es c Hin Hc Hh Hr Hd Hn ->. apply FindFiles_iff. split; [reflexivity|].
  exists (core ++ "."%char :: suf), c. split; [exact Hin|]. split; [reflexivity|]. split.
  - intros [t E]. destruct core as [|x core]; [congruence|]. apply Hh. cbn in *. now inversion E.
  - left. exists a, b. f_equal. f_equal. symmetry.
    apply (GetSuffix_dot o _ (core ++ "."%char :: suf) core suf); auto. right. auto.
Qed.
Print Assumptions C66_complete.

(** A file without a dot in its name is found by every expression. *)
Theorem C66_no_suffix_refuted : forall (o : os) (path expr n : bytes) (w : bool) (es : list (bytes * node)) (c : node),
  In (n, c) es -> realpath o n = None -> ~ In "."%char n ->
  In (path ++ "/"%char :: n) (FindFiles o path (Dir true w es) expr).
Proof.
  intros o path expr n w es c Hin Hr Hd. apply FindFiles_iff. split; [reflexivity|].
  exists n, c. split; [exact Hin|]. split; [reflexivity|]. split.
  - intros [t ->]. apply Hd. now left.
  - left. exists [], expr. rewrite (GetSuffix_nodot o n n); [reflexivity|right; auto|exact Hd].
Qed.
Print Assumptions C66_no_suffix_refuted.

(** A suffix that is only part of the wanted one is accepted too, and so are
    directories. *)
Theorem C66_part_suffix_refuted :
  FindFiles bare_os (str "/d") (Dir true true [(str "a.t", Leaf); (str "b.txt", Leaf); (str "sub", Dir true true [])]) (str "*.txt")
  = [str "/d/a.t"; str "/d/b.txt"; str "/d/sub"].
Proof. vm_compute. reflexivity. Qed.
Print Assumptions C66_part_suffix_refuted.

(** A directory that cannot be listed gives no files, as an empty one would
    (the returned code is 0 for both). *)
Theorem C66_unreadable_refuted : forall o path w es expr, FindFiles o path (Dir false w es) expr = [].
Proof. reflexivity. Qed.
Print Assumptions C66_unreadable_refuted.

Example C66_ex :
  FindFiles bare_os (str "/d") (Dir true true [(str "a.csv", Leaf); (str "b.txt", Leaf); (str ".c.txt", Leaf)]) (str "*.txt")
  = [str "/d/b.txt"].
Proof. vm_compute. reflexivity. Qed.

(** ** C67 *)
(** CleanDirectory on an accessible directory: what stays is exactly the hidden
    entries and the non-empty subdirectories; the result says whether a visible
    non-empty subdirectory was met. *)
Theorem C67_clean : forall (o : os) (pw : bool) (path : bytes) (es : list (bytes * node)), exists b,
  CleanDirectory o pw path (Some (Dir true true es)) =
    (b, Some (Dir true true (filter (fun e => hidden (fst e) || nonempty_dir (snd e)) es))) /\
  (b = true <-> forall n c, In (n, c) es -> hidden n = false -> nonempty_dir c = false).
Proof. exact Clean_left. Qed.
Print Assumptions C67_clean.

(** Deleting with subdirectories removes the whole accessible tree. *)
Theorem C67_delete : forall n, accessible n -> n <> Leaf -> DeleteDirectory_call true true (Some n) = (true, None).
Proof.
  intros n Ha Hl. pose proof (Delete_all _ n (Nat.lt_succ_diag_r _) Ha Hl) as E.
  destruct n as [|r w es]; [congruence|]. cbn [DeleteDirectory_call]. now rewrite E.
Qed.
Print Assumptions C67_delete.

(** Without: the non-empty subdirectories stay as they are, and with them the
    directory. *)
Theorem C67_delete_shallow : forall pw es,
  DeleteDirectory_call false pw (Some (Dir true true es)) =
  (true, let left := filter (fun e => nonempty_dir (snd e)) es in
         if pw && match left with [] => true | _ => false end then None else Some (Dir true true left)).
Proof. intros. cbn [DeleteDirectory_call]. now rewrite Delete_shallow. Qed.
Print Assumptions C67_delete_shallow.

(** Success is reported although files are left: a hidden file, a directory that
    cannot be listed, one that cannot be deleted. *)
Theorem C67_report_refuted :
  CleanDirectory bare_os true (str "/d") (Some (Dir true true [(str ".h", Leaf)])) = (true, Some (Dir true true [(str ".h", Leaf)])) /\
  CleanDirectory bare_os true (str "/d") (Some (Dir false true [(str "f", Leaf)])) = (true, Some (Dir false true [(str "f", Leaf)])) /\
  DeleteDirectory_call true true (Some (Dir true false [(str "f", Leaf)])) = (true, Some (Dir true false [(str "f", Leaf)])) /\
  DeleteDirectory_call false true (Some (Dir true true [(str "s", Dir true true [(str "f", Leaf)])]))
    = (true, Some (Dir true true [(str "s", Dir true true [(str "f", Leaf)])])).
Proof. vm_compute. auto. Qed.
Print Assumptions C67_report_refuted.

Example C67_ex : accessible (Dir true true [(str "f", Leaf); (str "s", Dir true true [(str "g", Leaf)])]).
Proof.
  constructor. intros e [<-|[<-|[]]]; cbn [snd]; [constructor|].
  constructor. intros e [<-|[]]; constructor.
Qed.
