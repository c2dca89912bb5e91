(** C146-C148: the log file, the text of exceptions, the number of threads. *)
From Coq Require Import ZArith Ascii String List Bool Lia.
From Verif Require Import Base StrModel TimeModel FtoaModel FsModel PathModel PathSpec PathProofs PathProofs5 LogModel LogSpec LogProofs.
Import ListNotations.
Open Scope Z_scope.

(** ** C146. After any calls of Log, by any names, a file holds what it held before and then
    one line per call whose name leads to it, in order. *)
Theorem C146_file : forall cwd may may_write root calls q old,
  fs_ok root -> kind_at root q = Some (KFile old) -> may_write q = true ->
  kind_at (run_logs cwd may may_write root calls) q = Some (KFile (old ++ lines_for cwd root q calls)).
Proof. intros. apply run_file; assumption. Qed.
Print Assumptions C146_file.

(** A log file that does not exist is created by the first of these calls. *)
Theorem C146_new : forall cwd may may_write root calls q,
  fs_ok root -> kind_at root q = None -> may (removelast q) = true -> may_write q = true ->
  kind_at (run_logs cwd may may_write root calls) q =
  if existsb (leads cwd root q) calls then Some (KFile (lines_for cwd root q calls)) else None.
Proof. intros. apply run_new; assumption. Qed.
Print Assumptions C146_new.

(** Nothing else changes: places no name leads to, files that may not be written, and
    directories and devices. *)
Theorem C146_elsewhere : forall cwd may may_write root calls x, fs_ok root ->
  (forall c, In c calls -> leads cwd root x c = true ->
     match kind_at root x with Some (KFile _) => may_write x = false | None => may (removelast x) = false | _ => True end) ->
  kind_at (run_logs cwd may may_write root calls) x = kind_at root x.
Proof. intros. apply run_other; assumption. Qed.
Print Assumptions C146_elsewhere.

(** The time stamp has 24 characters, no line break, and tells the time to the second. *)
Theorem C146_stamp : forall t u, plain_time t -> plain_time u ->
  List.length (timestamp t) = 24%nat /\ ~ In NL (timestamp t) /\ (timestamp t = timestamp u <-> same_time t u).
Proof.
  intros t u P Q. destruct (stamp_body t P) as (E & L & N). split; [exact L|]. split; [exact N|]. split; [apply stamp_inj; assumption|].
  intros (A & B & C & D & F & G & H). unfold timestamp, asctime. rewrite A, B, C, D, F, G, H. reflexivity.
Qed.
Print Assumptions C146_stamp.

(** The text of a log determines the times and the messages, if no message has a line
    break. *)
Theorem C146_recover : forall cwd root q calls cwd' root' q' calls',
  Forall (fun c => plain_time (fst (fst c)) /\ ~ In NL (snd (fst c))) calls -> Forall (fun c => plain_time (fst (fst c)) /\ ~ In NL (snd (fst c))) calls' ->
  lines_for cwd root q calls = lines_for cwd' root' q' calls' ->
  Forall2 (fun c c' => same_time (fst (fst c)) (fst (fst c')) /\ snd (fst c) = snd (fst c')) (filter (leads cwd root q) calls) (filter (leads cwd' root' q') calls').
Proof.
  intros cwd root q calls cwd' root' q' calls' F F' E. unfold lines_for in E.
  set (l := filter (leads cwd root q) calls) in *. set (l' := filter (leads cwd' root' q') calls') in *.
  assert (Fl : Forall (fun c => plain_time (fst (fst c)) /\ ~ In NL (snd (fst c))) l).
  { rewrite Forall_forall in *. intros c I. apply filter_In in I. apply F, I. }
  assert (Fl' : Forall (fun c => plain_time (fst (fst c)) /\ ~ In NL (snd (fst c))) l').
  { rewrite Forall_forall in *. intros c I. apply filter_In in I. apply F', I. }
  clearbody l l'. clear F F'.
  assert (G : Forall2 (fun c c' => same_time (fst c) (fst c') /\ snd c = snd c') (map fst l) (map fst l')).
  { apply entries_inj; [apply Forall_map; exact Fl|apply Forall_map; exact Fl'|]. rewrite !map_map. exact E. }
  clear E Fl Fl'. revert l' G. induction l as [|c l IH]; intros [|c' l'] G; inversion G; subst; constructor; auto.
Qed.
Print Assumptions C146_recover.

(** A message with a line break can look like another entry: one call and two calls leave
    the same file. *)
Theorem C146_forged_refuted : forall cwd may may_write root q old p t u a b,
  fs_ok root -> kind_at root q = Some (KFile old) -> may_write q = true -> resolve true root cwd (cbytes p) = Some q ->
  kind_at (run_logs cwd may may_write root [(t, a ++ NL :: timestamp u ++ str ": " ++ b, p)]) q =
  kind_at (run_logs cwd may may_write root [(t, a, p); (u, b, p)]) q.
Proof.
  intros cwd may may_write root q old p t u a b OK K M R. rewrite !(run_file cwd may may_write _ root q old OK K M). f_equal. f_equal. f_equal.
  assert (L : forall x y, leads cwd root q (x, y, p) = true) by (intros x y; unfold leads; cbn [snd]; rewrite R; destruct (list_eq_dec (list_eq_dec ascii_dec) q q); [reflexivity|congruence]).
  unfold lines_for. cbn [filter]. rewrite !L. cbn [map concat fst snd]. rewrite !app_nil_r. rewrite <- !app_assoc. cbn [app]. rewrite <- !app_assoc. reflexivity.
Qed.
Print Assumptions C146_forged_refuted.

(** A directory d with the log l.log, a link to it, and a link to a file yet to be made. *)
Definition log_tree : tree := TDir [(str "d", TDir [(str "l.log", TFile (str "x"))]); (str "k", TLink (str "d/l.log")); (str "n", TLink (str "d/new.log"))].
Definition log_time : tm := mkTm 126 10 8 1 2 3 0 311 0.
Lemma log_ok : fs_ok log_tree.
Proof. apply good_ok. vm_compute. reflexivity. Qed.

Example C146_ex : plain_time log_time /\
  timestamp log_time = str "Sun Nov  8 01:02:03 2026" /\
  let calls := [(log_time, str "a", str "k"); (log_time, str "b", str "/n"); (log_time, str "c", str "/d/../d/l.log"); (log_time, str "e", str "d"); (log_time, str "f", str "z/y")] in
  let r := run_logs [] (fun _ => true) (fun _ => true) log_tree calls in
  kind_at r [str "d"; str "l.log"] = Some (KFile (str "xSun Nov  8 01:02:03 2026: a" ++ NL :: str "Sun Nov  8 01:02:03 2026: c" ++ [NL])) /\
  kind_at r [str "d"; str "new.log"] = Some (KFile (str "Sun Nov  8 01:02:03 2026: b" ++ [NL])) /\
  kind_at r [str "n"] = Some (KLink (str "d/new.log")).
Proof. unfold plain_time. split; [cbn; lia|]. vm_compute. auto. Qed.

(** ** C147. The text of an exception names class, function and message, and tells them
    apart if class and function have no line break. *)
Theorem C147_what : forall c f m, ~ In NUL (c ++ f ++ m) ->
  exception_what c f m = str "Class:" ++ c ++ NL :: str "Function:" ++ f ++ NL :: str "Message:" ++ m.
Proof.
  intros c f m N. unfold exception_what.
  assert (G : forall s, ~ In NUL s -> cbytes s = s).
  { induction s as [|x s IH]; intros H; [reflexivity|]. cbn [cbytes]. destruct (ascii_dec x "000") as [->|]; [exfalso; apply H; left; reflexivity|]. f_equal. apply IH. intros I. apply H. right. exact I. }
  apply G. unfold exception_text. rewrite !in_app_iff in *. intros I.
  repeat (destruct I as [I|I] || (cbn [In str list_ascii_of_string] in I) || (apply in_app_iff in I)); try discriminate; tauto.
Qed.
Print Assumptions C147_what.

Theorem C147_parts : forall c f m c' f' m', ~ In NUL (c ++ f ++ m) -> ~ In NUL (c' ++ f' ++ m') ->
  ~ In NL c -> ~ In NL f -> ~ In NL c' -> ~ In NL f' ->
  exception_what c f m = exception_what c' f' m' -> c = c' /\ f = f' /\ m = m'.
Proof.
  intros c f m c' f' m' N N' C F C' F' E. rewrite (C147_what c f m N), (C147_what c' f' m' N') in E.
  apply app_len in E; [|reflexivity]. destruct E as [_ E]. apply line_cut in E; [|exact C|exact C']. destruct E as [-> E].
  apply app_len in E; [|reflexivity]. destruct E as [_ E]. apply line_cut in E; [|exact F|exact F']. destruct E as [-> E].
  apply app_len in E; [|reflexivity]. destruct E as [_ E]. auto.
Qed.
Print Assumptions C147_parts.

(** With line breaks they can be confused; after a NUL nothing is shown. *)
Theorem C147_ambiguous_refuted : forall c x f m, let part := NL :: str "Function:" in
  exception_what (c ++ part ++ x) f m = exception_what c (x ++ part ++ f) m.
Proof. intros c x f m part. unfold exception_what, exception_text, part. rewrite <- ?app_assoc. cbn [app]. rewrite <- ?app_assoc. reflexivity. Qed.
Print Assumptions C147_ambiguous_refuted.

Theorem C147_nul_refuted : forall c f m x, ~ In NUL (c ++ f ++ m) -> exception_what c f (m ++ NUL :: x) = exception_what c f m.
Proof.
  intros c f m x N.
  assert (G : forall s y, ~ In NUL s -> cbytes (s ++ NUL :: y) = s).
  { induction s as [|z s IH]; intros y H; [reflexivity|]. cbn [app cbytes]. destruct (ascii_dec z "000") as [->|]; [exfalso; apply H; left; reflexivity|]. f_equal. apply IH. intros I. apply H. right. exact I. }
  rewrite (C147_what c f m N). unfold exception_what, exception_text.
  match goal with |- cbytes ?s = ?r => replace s with (r ++ NUL :: x) end.
  - apply G. rewrite !in_app_iff in *. intros I.
    repeat (destruct I as [I|I] || (cbn [In str list_ascii_of_string] in I) || (apply in_app_iff in I)); try discriminate; tauto.
  - rewrite <- ?app_assoc. cbn [app]. rewrite <- ?app_assoc. cbn [app]. reflexivity.
Qed.
Print Assumptions C147_nul_refuted.

Example C147_ex : exception_what (str "Raster") (str "Read") (str "no file") = str "Class:Raster" ++ NL :: str "Function:Read" ++ NL :: str "Message:no file".
Proof. vm_compute. reflexivity. Qed.

(** ** C148. Outside of parallel regions the last call decides the number of threads asked
    for, but a negative number changes nothing. *)
Theorem C148_last : forall procs calls s, o_team s <= 1 ->
  o_asked (run_threads procs (calls ++ [CDefault]) s) = Some (Z.quot procs 2) /\
  (forall n, 0 <= n -> o_asked (run_threads procs (calls ++ [CSet n]) s) = Some n) /\
  (forall n, n < 0 -> o_asked (run_threads procs (calls ++ [CSet n]) s) = o_asked (run_threads procs calls s)).
Proof.
  intros procs calls s T. assert (TS : o_team (run_threads procs calls s) <= 1).
  { revert s T. unfold run_threads. induction calls as [|c l IH]; intros s T; [exact T|]. cbn [fold_left]. apply IH. destruct c as [|n]; cbn [thread_step].
    - unfold SetDefaultOpenMPThread. destruct (o_team s <=? 1); exact T.
    - unfold SetOpenMPThread. destruct (n <? 0); exact T. }
  unfold run_threads in *. rewrite fold_left_app. split; [|split; intros n B; rewrite fold_left_app]; cbn [fold_left thread_step].
  - unfold SetDefaultOpenMPThread. destruct (Z.leb_spec (o_team (fold_left (thread_step procs) calls s)) 1); [reflexivity|lia].
  - unfold SetOpenMPThread. destruct (Z.ltb_spec n 0); [lia|reflexivity].
  - unfold SetOpenMPThread. destruct (Z.ltb_spec n 0); [reflexivity|lia].
Qed.
Print Assumptions C148_last.

(** Inside of a parallel region of several threads the default changes nothing. *)
Theorem C148_team : forall procs calls s, 1 < o_team s ->
  o_asked (run_threads procs (calls ++ [CDefault]) s) = o_asked (run_threads procs calls s) /\
  run_threads procs calls s = run_threads procs (filter (fun c => match c with CSet n => 0 <=? n | CDefault => false end) calls) s.
Proof.
  intros procs calls s T.
  assert (G : forall l s, 1 < o_team s -> 1 < o_team (run_threads procs l s) /\ run_threads procs l s = run_threads procs (filter (fun c => match c with CSet n => 0 <=? n | CDefault => false end) l) s).
  { clear. unfold run_threads. induction l as [|c l IH]; intros s T; [split; [exact T|reflexivity]|]. cbn [fold_left filter]. destruct c as [|n]; cbn [thread_step].
    - unfold SetDefaultOpenMPThread. destruct (Z.leb_spec (o_team s) 1); [lia|]. apply IH, T.
    - unfold SetOpenMPThread. destruct (Z.ltb_spec n 0), (Z.leb_spec 0 n); try lia; cbn [fold_left thread_step].
      + apply IH, T.
      + unfold SetOpenMPThread. destruct (Z.ltb_spec n 0); [lia|]. apply IH. exact T. }
  destruct (G calls s T) as [T' E]. split; [|exact E]. unfold run_threads in *. rewrite fold_left_app. cbn [fold_left thread_step].
  unfold SetDefaultOpenMPThread. destruct (Z.leb_spec (o_team (fold_left (thread_step procs) calls s)) 1); [lia|reflexivity].
Qed.
Print Assumptions C148_team.

(** The default replaces every other choice made before, though it is meant for programs
    that made none; with one processor it asks for no thread at all. *)
Theorem C148_kept_refuted : forall procs n calls s, o_team s <= 1 -> 0 <= n -> n <> Z.quot procs 2 ->
  o_asked (run_threads procs (calls ++ [CSet n]) s) = Some n /\
  o_asked (run_threads procs ((calls ++ [CSet n]) ++ [CDefault]) s) <> Some n.
Proof.
  intros procs n calls s T B N. split; [apply C148_last; assumption|]. rewrite (proj1 (C148_last procs (calls ++ [CSet n]) s T)). congruence.
Qed.
Print Assumptions C148_kept_refuted.

Theorem C148_zero_refuted : forall calls s, o_team s <= 1 -> o_asked (run_threads 1 (calls ++ [CDefault]) s) = Some 0.
Proof. intros calls s T. apply (proj1 (C148_last 1 calls s T)). Qed.
Print Assumptions C148_zero_refuted.

Example C148_ex : o_asked (run_threads 8 [CSet 6; CSet (-1)] (mkOmp None 1)) = Some 6 /\ o_asked (run_threads 8 [CSet 6; CDefault] (mkOmp None 1)) = Some 4 /\
  o_asked (run_threads 8 [CSet 6; CDefault] (mkOmp None 3)) = Some 6.
Proof. vm_compute. auto. Qed.
