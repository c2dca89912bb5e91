(** Vocabulary for the log file, exceptions and threads. *)
From Coq Require Import ZArith Ascii String List Bool.
From Verif Require Import Base StrModel TimeModel FtoaModel FsModel PathModel LogModel.
Import ListNotations.
Open Scope Z_scope.

Definition NL : ascii := "010".
Definition NUL : ascii := "000".

(** A time of day and date as localtime gives it. *)
Definition plain_time (t : tm) : Prop :=
  0 <= tm_wday t <= 6 /\ 0 <= tm_mon t <= 11 /\ 1 <= tm_mday t <= 31 /\ 0 <= tm_hour t <= 23 /\ 0 <= tm_min t <= 59 /\ 0 <= tm_sec t <= 60 /\
  1000 <= tm_year t + 1900 <= 9999.
Definition same_time (t u : tm) : Prop :=
  tm_year t = tm_year u /\ tm_mon t = tm_mon u /\ tm_mday t = tm_mday u /\ tm_hour t = tm_hour u /\ tm_min t = tm_min u /\ tm_sec t = tm_sec u /\ tm_wday t = tm_wday u.

(** A call of Log: time, message, name. *)
Definition log_call := (tm * bytes * bytes)%type.
Definition run_logs (cwd : place) (may may_write : place -> bool) (root : tree) (calls : list log_call) : tree :=
  fold_left (fun r c => Log cwd may may_write r (fst (fst c)) (snd (fst c)) (snd c)) calls root.
(** The calls whose name leads to the place [q] (which need not exist). *)
Definition leads (cwd : place) (root : tree) (q : place) (c : log_call) : bool :=
  match resolve true root cwd (cbytes (snd c)) with Some x => if list_eq_dec (list_eq_dec ascii_dec) x q then true else false | None => false end.
(** Their lines. *)
Definition lines_for (cwd : place) (root : tree) (q : place) (calls : list log_call) : bytes :=
  concat (map (fun c => timestamp (fst (fst c)) ++ str ": " ++ snd (fst c) ++ [NL]) (filter (leads cwd root q) calls)).

(** Calls setting the number of threads. *)
Inductive thread_call := CDefault | CSet (n : Z).
Definition thread_step (procs : Z) (s : omp) (c : thread_call) : omp :=
  match c with CDefault => SetDefaultOpenMPThread procs s | CSet n => SetOpenMPThread n s end.
Definition run_threads (procs : Z) (calls : list thread_call) (s : omp) : omp := fold_left (thread_step procs) calls s.
