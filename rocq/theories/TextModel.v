(** Arrays in text files (src/utils_array.cpp). Proof-free.

    A stream is the text not read yet and whether it is in a good state; a file
    that cannot be opened is no text and a bad state. Running out of memory is not
    modelled. Elements left unset are [None]. *)
From Coq Require Import ZArith Ascii String List Bool.
From Verif Require Import Base StrModel FloatModel NumModel.
Import ListNotations.
Open Scope Z_scope.
Open Scope outcome_scope.

(** The state of [ifs] (utils_array.cpp:29, 41, 59). *)
Definition stream := (bytes * bool)%type.
(** Opening a file; [None] when it cannot be opened (utils_array.cpp:29, 41). *)
Definition open_stream (file : option bytes) : stream := match file with Some s => (s, true) | None => ([], false) end.

(** [ifs >> tmp] (utils_array.cpp:31, 43, 61). *)
Definition get_word (st : stream) : stream :=
  if negb (snd st) then st
  else match skip_ws (fst st) with
       | [] => ([], false)
       | s => (snd (span_word s), true)
       end.

(** [ifs >> n] for an int (utils_array.cpp:31, 43, 47, 61, 65): the new state and the value
    stored, if any. Nothing is stored when no character is left, 0 when there is no
    digit, and the nearest limit when the number does not fit. *)
Definition get_int (st : stream) : stream * option Z :=
  if negb (snd st) then (st, None)
  else match skip_ws (fst st) with
       | [] => (([], false), None)
       | s =>
           let (neg, r) := get_sign s in
           let (d, r') := span_digits r in
           match d with
           | [] => ((r', false), Some 0)
           | _ =>
               let z := if neg then - dval d else dval d in
               if z <? INT_MIN then ((r', false), Some INT_MIN)
               else if INT_MAX <? z then ((r', false), Some INT_MAX)
               else ((r', true), Some z)
           end
       end.

Section Read.
Context {T : Type}.
(** [ifs >> data[i]] and [ifs >> data[i][j]] (utils_array.cpp:34, 51, 69). *)
Variable get : stream -> stream * option T.
(** The conversion of an int to an element (utils_array.cpp:49, 67). *)
Variable of_int : Z -> T.

(** The loop over elements (utils_array.cpp:33-35, 50-52, 68-70). *)
Fixpoint get_many (n : nat) (st : stream) : stream * list (option T) :=
  match n with
  | O => (st, [])
  | S m => let (st1, x) := get st in let (st2, l) := get_many m st1 in (st2, x :: l)
  end.

(** [ifs >> tmp >> rows] (utils_array.cpp:31, 43, 61); [rows0] is what the caller's
    variable holds, if anything. *)
Definition get_rows (st : stream) (rows0 : option Z) : outcome (stream * Z) :=
  let (st1, r) := get_int (get_word st) in
  match r with
  | Some z => Ok (st1, z)
  | None => match rows0 with Some z => Ok (st1, z) | None => UB end
  end.

(** Read1DArrayFromTxtFile (utils_array.cpp:27-37). A negative length throws. *)
Definition Read1DArrayFromTxtFile (file : option bytes) (rows0 : option Z) : outcome (Z * list (option T)) :=
  let* sr := get_rows (open_stream file) rows0 in
  let (st, rows) := sr in
  if rows <? 0 then Throw else Ok (rows, snd (get_many (Z.to_nat rows) st)).

(** The loop over rows (utils_array.cpp:45-53, 63-71); [n] is the variable of the
    row length, not set at first. [n + 1] overflows for the largest int, and element
    0 of an array without elements is outside. *)
Fixpoint get_row (k : nat) (st : stream) (n : option Z) : outcome (list (list (option T))) :=
  match k with
  | O => Ok []
  | S m =>
      let (st1, r) := get_int st in
      match (match r with Some z => Some z | None => n end) with
      | None => UB
      | Some z =>
          if INT_MAX <=? z then UB
          else if z + 1 <? 0 then Throw
          else if z + 1 =? 0 then UB
          else
            let (st2, l) := get_many (Z.to_nat z) st1 in
            let* rest := get_row m st2 (Some z) in
            Ok ((Some (of_int z) :: l) :: rest)
      end
  end.

(** The text part of Read2DArrayFromTxtFile (utils_array.cpp:42-53) and
    Read2DArrayFromString (60-71). *)
Definition read_2d (st : stream) (rows0 : option Z) : outcome (Z * list (list (option T))) :=
  let* sr := get_rows st rows0 in
  let (st1, rows) := sr in
  if rows <? 0 then Throw
  else let* l := get_row (Z.to_nat rows) st1 None in Ok (rows, l).
(** Read2DArrayFromTxtFile (utils_array.cpp:39-55). *)
Definition Read2DArrayFromTxtFile (file : option bytes) (rows0 : option Z) : outcome (Z * list (list (option T))) :=
  read_2d (open_stream file) rows0.
(** Read2DArrayFromString (utils_array.cpp:57-72). *)
Definition Read2DArrayFromString (s : bytes) (rows0 : option Z) : outcome (Z * list (list (option T))) :=
  read_2d (s, true) rows0.
End Read.

(** Output1DArrayToTxtFile (utils_array.cpp:8-14): the text of the file; elements
    are written as doubles, which hold the same value. *)
Definition Output1DArrayToTxtFile (data : list f64) : bytes := flat_map (fun x => g6 x ++ ["010"%char]) data.
(** Output2DArrayToTxtFile (utils_array.cpp:16-25). *)
Definition Output2DArrayToTxtFile (data : list (list f64)) : bytes :=
  flat_map (fun row => flat_map (fun x => g6 x ++ ["009"%char]) row ++ ["010"%char]) data.
