(** Releasing several arrays in one call (src/utils_array.h). Proof-free.

    Memory as in [ArrayModel]. The functions have a variable list of arguments
    whose last named parameter is a reference; the standard leaves [va_start] on a
    reference undefined, and the model follows what compilers make of it: the
    arguments after the first are taken in order. *)
From Coq Require Import ZArith List Bool.
From Verif Require Import Base RasterModel ArrayModel.
Import ListNotations.
Open Scope Z_scope.
Open Scope outcome_scope.

Section Batch.
Context {T : Type}.

(** The loop over the arguments (utils_array.h:482-486, 495-499); [rel] releases
    one. Taking an argument that was not passed is undefined. *)
Fixpoint release_rest (rel : heap T -> pointer -> outcome (heap T * pointer)) (h : heap T) (args : list pointer) : outcome (heap T) :=
  match args with
  | [] => UB
  | None :: _ => Ok h
  | p :: t => let* r := rel h p in release_rest rel (fst r) t
  end.

(** BatchRelease1DArray (utils_array.h:477-488): memory and the first argument, the
    only one passed by reference. *)
Definition BatchRelease1DArray (h : heap T) (data : pointer) (args : list pointer) : outcome (heap T * pointer) :=
  let* r := Release1DArray h data in
  let* h' := release_rest Release1DArray (fst r) args in
  Ok (h', snd r).

(** BatchRelease2DArray (utils_array.h:490-501). The number of rows is not used by
    Release2DArray (467-475). *)
Definition BatchRelease2DArray (h : heap T) (data : pointer) (args : list pointer) : outcome (heap T * pointer) :=
  let* r := Release2DArray h data in
  let* h' := release_rest Release2DArray (fst r) args in
  Ok (h', snd r).
End Batch.
