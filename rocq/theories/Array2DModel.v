(** The class Array2D (src/utils_array.h:219-326): a table in one block of memory.
    Proof-free. Sizes are 32-bit unsigned integers. Memory as in ArrayModel; [dflt]
    is [T()]. An element may hold any value; a call that throws leaves its target
    as it was. *)
From Coq Require Import ZArith List Bool.
From Verif Require Import Base RasterModel ArrayModel.
Import ListNotations.
Open Scope Z_scope.
Open Scope outcome_scope.

Section A2.
Context {T : Type} (dflt : T).

(** Arithmetic of [vuint32_t] (basic.h:213). *)
Definition u32 (z : Z) : Z := z mod 2 ^ 32.

(** utils_array.h:229-232: the members. *)
Record arr2 := mkArr2 { a_ptr : pointer; a_rows : Z; a_cols : Z }.

(** utils_array.h:234-254 create2DArray. [ok1], [ok2]: is there memory for the row
    pointers, for the elements; there is no check. *)
Definition create2DArray (ok1 ok2 : bool) (h : heap T) (nrows ncols : Z) (v : T) : outcome (heap T * pointer) :=
  let n := u32 (nrows * ncols) in
  let (h1, ptr) := alloc ok1 h nrows in
  let (h2, pool) := alloc ok2 h1 n in
  let* h3 := ofold (fun h i => store h pool i (CVal v)) (zseq n) h2 in
  let* h4 := ofold (fun h i => match pool with Some (b, o) => store h ptr i (CPtr b (o + i * ncols)) | None => UB end) (zseq nrows) h3 in
  Ok (h4, ptr).

(** utils_array.h:264 and 265-273: the constructors. [Throw]: invalid_argument. *)
Definition Construct0 : arr2 := mkArr2 None 0 0.
(** utils_array.h:265-273. *)
Definition Construct (ok1 ok2 : bool) (h : heap T) (rows cols : Z) (v : T) : outcome (heap T * arr2) :=
  if (rows <=? 0) || (cols <=? 0) then Throw
  else let* r := create2DArray ok1 ok2 h rows cols v in Ok (fst r, mkArr2 (snd r) rows cols).

(** utils_array.h:275-280: the destructor. *)
Definition Destruct (h : heap T) (a : arr2) : outcome (heap T) :=
  match a_ptr a with
  | None => Ok h
  | Some _ => let* p := load_ptr h (a_ptr a) 0 in let* h1 := free h p in free h1 (a_ptr a)
  end.

(** utils_array.h:282-285: the copying constructor; [std::copy] of the elements from
    the first of the first row to the end of the last. *)
Definition CopyConstruct (ok1 ok2 : bool) (h : heap T) (rhs : arr2) : outcome (heap T * arr2) :=
  let* r := create2DArray ok1 ok2 h (a_rows rhs) (a_cols rhs) dflt in
  let (h1, p) := r in
  let* first := load_ptr h1 (a_ptr rhs) 0 in
  let* last := load_ptr h1 (a_ptr rhs) (u32 (a_rows rhs - 1)) in
  let* out := load_ptr h1 p 0 in
  match first, last with
  | Some (b, o), Some (b', o') =>
      if Nat.eqb b b' then
        let* h2 := ofold (fun h k => let* x := load_val h first k in store h out k (CVal x)) (zseq (o' + a_cols rhs - o)) h1 in
        Ok (h2, mkArr2 p (a_rows rhs) (a_cols rhs))
      else UB
  | _, _ => UB
  end.

(** utils_array.h:287-292: the moving constructor: new object, old object. *)
Definition MoveConstruct (rhs : arr2) : arr2 * arr2 := (rhs, mkArr2 None (a_rows rhs) (a_cols rhs)).

(** A program: variables by number. No counterpart in utils_array.h:219-326. *)
Record state := mkState { s_heap : heap T; s_var : nat -> option arr2 }.
(** No counterpart in utils_array.h:219-326. *)
Definition start : state := mkState [] (fun _ => None).
(** No counterpart in utils_array.h:219-326. *)
Definition put (f : nat -> option arr2) (i : nat) (o : option arr2) : nat -> option arr2 := fun k => if Nat.eqb k i then o else f k.

(** The uses of the class (utils_array.h:264-325) a program can make. *)
Inductive op :=
| Declare (i : nat)                            (* Array2D<T> i; *)
| Make (i : nat) (rows cols : Z) (v : T)       (* Array2D<T> i(rows, cols, v); *)
| CopyOf (i j : nat)                           (* Array2D<T> i(j); *)
| MoveOf (i j : nat)                           (* Array2D<T> i(std::move(j)); *)
| Assign (i j : nat)                           (* i = j; *)
| MoveTo (i j : nat)                           (* i = std::move(j); *)
| Create (i : nat) (rows cols : Z) (v : T)     (* i.create(rows, cols, v); *)
| Set_ (i : nat) (r c : Z) (v : T)             (* i[r][c] = v; *)
| Get (i : nat) (r c : Z)                      (* i[r][c] *)
| End (i : nat).                               (* end of the scope of i *)

(** Access to a declared variable of the program; no counterpart in utils_array.h:219-326. *)
Definition get (s : state) (i : nat) : outcome arr2 := match s_var s i with Some a => Ok a | None => Throw end.
(** A declaration of a new variable of the program; no counterpart in utils_array.h:219-326. *)
Definition fresh (s : state) (i : nat) (k : outcome state) : outcome state := match s_var s i with None => k | Some _ => Throw end.

(** utils_array.h:294-326. [mem]: is there memory. A statement about a variable that
    is not declared, or declared already, has no meaning ([Throw]). *)
Definition step (mem : bool) (s : state) (o : op) : outcome state :=
  match o with
  | Declare i => fresh s i (Ok (mkState (s_heap s) (put (s_var s) i (Some Construct0))))
  | Make i r c v =>
      fresh s i match Construct mem mem (s_heap s) r c v with
                | Ok (h, a) => Ok (mkState h (put (s_var s) i (Some a)))
                | Throw => Ok s
                | UB => UB
                end
  | CopyOf i j =>
      let* b := get s j in
      fresh s i (let* x := CopyConstruct mem mem (s_heap s) b in Ok (mkState (fst x) (put (s_var s) i (Some (snd x)))))
  | MoveOf i j =>
      let* b := get s j in
      fresh s i (let (n, m) := MoveConstruct b in Ok (mkState (s_heap s) (put (put (s_var s) j (Some m)) i (Some n))))
  | Assign i j =>
      let* a := get s i in
      let* b := get s j in
      if Nat.eqb i j then Ok s
      else
        let* x := CopyConstruct mem mem (s_heap s) b in
        let* h := Destruct (fst x) a in
        Ok (mkState h (put (s_var s) i (Some (snd x))))
  | MoveTo i j =>
      let* a := get s i in
      let* b := get s j in
      if Nat.eqb i j then Ok s
      else Ok (mkState (s_heap s) (put (put (s_var s) i (Some b)) j (Some a)))
  | Create i r c v =>
      let* a := get s i in
      match Construct mem mem (s_heap s) r c v with
      | Ok (h, n) => let* h := Destruct h a in Ok (mkState h (put (s_var s) i (Some n)))
      | Throw => Ok s
      | UB => UB
      end
  | Set_ i r c v => let* a := get s i in let* h := write2 (s_heap s) (a_ptr a) r c v in Ok (mkState h (s_var s))
  | Get i r c => let* a := get s i in let* _ := read2 (s_heap s) (a_ptr a) r c in Ok s
  | End i => let* a := get s i in let* h := Destruct (s_heap s) a in Ok (mkState h (put (s_var s) i None))
  end.
(** The statements of a program one after the other; see step for utils_array.h:264-326. *)
Fixpoint run (mem : bool) (s : state) (os : list op) : outcome state :=
  match os with [] => Ok s | o :: t => let* s' := step mem s o in run mem s' t end.
End A2.
Arguments op T : clear implicits.
Arguments state T : clear implicits.
