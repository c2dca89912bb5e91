(** Specification vocabulary for arrays in text files. *)
From Coq Require Import ZArith Ascii List Bool.
From Verif Require Import Base StrModel StrSpec TextModel.
Import ListNotations.
Open Scope Z_scope.

(** [get] reads the word [t] as [x], wherever it stands, and leaves what follows. *)
Definition reads {T} (get : stream -> stream * option T) (t : bytes) (x : T) : Prop :=
  t <> [] /\ no_space t /\
  forall g rest, all_space g -> (rest = [] \/ exists c u, rest = c :: u /\ isspace c = true) ->
    get (g ++ t ++ rest, true) = ((rest, true), Some x).
(** [get] stores nothing, and fails, when there is nothing left to read. *)
Definition stops {T} (get : stream -> stream * option T) : Prop :=
  forall s good, good = false \/ all_space s -> snd (fst (get (s, good))) = false /\ snd (get (s, good)) = None.
