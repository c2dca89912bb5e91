(** Vocabulary for the file system properties. *)
From Coq Require Import Ascii String List Bool.
From Verif Require Import Base StrModel StrSpec FsModel.
Import ListNotations.

(** The absolute form of a path: realpath's answer, or the path itself when
    realpath fails. *)
Definition resolves (o : os) (f a : bytes) : Prop :=
  realpath o f = Some a \/ (realpath o f = None /\ a = f).

Definition not_directory (o : os) (a : bytes) : Prop :=
  forall a', resolves o a a' -> isdir o a' = false.

(** [a] is directory [d], a base name [core] and a suffix. *)
Definition path_parts (a d core suf : bytes) : Prop :=
  a = d ++ "/"%char :: core ++ "."%char :: suf /\
  ~ In "/"%char core /\ ~ In "/"%char suf /\ ~ In "."%char suf.

(** The significant lines, trimmed, in order. *)
Inductive kept : list bytes -> list bytes -> Prop :=
| kept_nil : kept [] []
| kept_line : forall l t ls out, trim_of l t -> t <> [] -> hd_error t <> Some "#"%char ->
    kept ls out -> kept (l :: ls) (t :: out)
| kept_skip : forall l t ls out, trim_of l t -> t = [] \/ hd_error t = Some "#"%char ->
    kept ls out -> kept (l :: ls) out.

(** A directory with entries in it. *)
Definition nonempty_dir (n : node) : bool :=
  match n with Dir _ _ (_ :: _) => true | _ => false end.

(** Every directory of the tree can be listed and changed. *)
Inductive accessible : node -> Prop :=
| acc_leaf : accessible Leaf
| acc_dir : forall es, (forall e, In e es -> accessible (snd e)) -> accessible (Dir true true es).

(** Either form of the directory [d/] that realpath may return. *)
Definition dir_form (o : os) (d : bytes) : Prop :=
  exists p, resolves o (d ++ ["/"%char]) p /\
    (p = d ++ ["/"%char] \/ (p = d /\ d <> [] /\ ~ ends_with "/" d)).

