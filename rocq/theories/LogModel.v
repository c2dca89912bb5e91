(** src/basic.cpp: the log file, the text of exceptions, the number of threads. Proof-free. *)
From Coq Require Import ZArith Ascii String List Bool.
From Verif Require Import Base StrModel TimeModel FtoaModel FsModel PathModel.
Import ListNotations.
Open Scope Z_scope.

(** Abbreviated names as asctime_r(3) prints them (basic.cpp:88). *)
Definition day_names : list bytes := map str ["Sun"; "Mon"; "Tue"; "Wed"; "Thu"; "Fri"; "Sat"]%string.
(** asctime_r(3) (basic.cpp:88). *)
Definition month_names : list bytes := map str ["Jan"; "Feb"; "Mar"; "Apr"; "May"; "Jun"; "Jul"; "Aug"; "Sep"; "Oct"; "Nov"; "Dec"]%string.
(** A name by its number, "???" for other numbers (glibc; basic.cpp:88). *)
Definition name_of (l : list bytes) (k : Z) : bytes := if k <? 0 then str "???" else nth (Z.to_nat k) l (str "???").
(** "%3d" of asctime_r(3) (basic.cpp:88). *)
Definition pad3 (z : Z) : bytes := let d := itoa z in repeat " "%char (3 - length d) ++ d.

(** asctime_r(3) (basic.cpp:88), glibc: at most 25 characters are left in the buffer. *)
Definition asctime (t : tm) : bytes :=
  firstn 25 (name_of day_names (tm_wday t) ++ " "%char :: name_of month_names (tm_mon t) ++ pad3 (tm_mday t) ++
             " "%char :: pad2 (tm_hour t) ++ ":"%char :: pad2 (tm_min t) ++ ":"%char :: pad2 (tm_sec t) ++ " "%char :: itoa (tm_year t + 1900) ++ ["010"%char]).

(** basic.cpp:90-91: without the last character. *)
Definition timestamp (t : tm) : bytes := removelast (asctime t).

(** basic.cpp:94-97: what is written. *)
Definition log_entry (t : tm) (msg : bytes) : bytes := timestamp t ++ str ": " ++ msg ++ ["010"%char].

(** basic.cpp:78-101 Log at the local time [t]. The file is opened with std::ios::app: it is
    created if it does not exist. Writes do not fail. *)
Definition Log (cwd : place) (may may_write : place -> bool) (root : tree) (t : tm) (msg logpath : bytes) : tree :=
  match append_file cwd may may_write root (cbytes logpath) (log_entry t msg) with
  | Some root' => root'
  | None => root
  end.

(** basic.cpp:37-40: the text given to std::runtime_error. *)
Definition exception_text (class_name function_name msg : bytes) : bytes :=
  str "Class:" ++ class_name ++ "010"%char :: str "Function:" ++ function_name ++ "010"%char :: str "Message:" ++ msg.
(** basic.cpp:42-48 ToString and what: the characters before the first NUL. *)
Definition exception_what (class_name function_name msg : bytes) : bytes := cbytes (exception_text class_name function_name msg).

(** OpenMP: the number of threads asked for with omp_set_num_threads ([None]: never), and
    the number of threads of the current team, 1 outside of parallel regions
    (basic.cpp:115-134). *)
Record omp := mkOmp { o_asked : option Z; o_team : Z }.
(** omp_set_num_threads (basic.cpp:121, 131). *)
Definition omp_set_num_threads (s : omp) (n : Z) : omp := mkOmp (Some n) (o_team s).
(** basic.cpp:115-125 SetDefaultOpenMPThread; [procs] is what GetAvailableThreadNum
    (103-113) answers. *)
Definition SetDefaultOpenMPThread (procs : Z) (s : omp) : omp :=
  if o_team s <=? 1 then omp_set_num_threads s (Z.quot procs 2) else s.
(** basic.cpp:127-134 SetOpenMPThread. *)
Definition SetOpenMPThread (n : Z) (s : omp) : omp := if n <? 0 then s else omp_set_num_threads s n.
