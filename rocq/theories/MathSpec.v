(** Vocabulary for the array mathematics properties. *)
From Coq Require Import ZArith QArith List Bool Permutation.
From Verif Require Import Base MathModel.
Import ListNotations.
Open Scope Z_scope.

(** A team that carries out each of [n] iterations exactly once. *)
Definition covers (t : team) (n : nat) : Prop := Permutation (iterations t) (seq 0 n).

(** A commutative monoid given by a total addition. *)
Definition comm_monoid {T} (op : T -> T -> T) (zero : T) : Prop :=
  (forall a b c, op a (op b c) = op (op a b) c) /\ (forall a b, op a b = op b a) /\ (forall a, op zero a = a).

(** Sums of a list. *)
Definition zsum (l : list Z) : Z := fold_right Z.add 0 l.
Definition qsum (l : list Q) : Q := fold_right Qplus 0%Q l.

(** The elements that are not excluded. *)
Definition valid (feq : Q -> Q -> bool) (exclude : Q) (l : list Q) : list Q :=
  filter (fun v => negb (feq v exclude)) l.

(** A strict order whose complement is transitive (a total preorder). *)
Definition strict_weak {T} (ltb : T -> T -> bool) : Prop :=
  (forall a b, ltb a b = true -> ltb b a = false) /\
  (forall a b c, ltb a b = false -> ltb b c = false -> ltb a c = false).

(** The statistics [st] are those of the values [l]. *)
Definition stats_of (sqrt : Q -> Q) (l : list Q) (st : stats) : Prop :=
  s_num st = Z.of_nat (length l) /\
  ((exists x, In x l /\ (x == s_max st)%Q) /\ forall x, In x l -> (x <= s_max st)%Q) /\
  ((exists x, In x l /\ (x == s_min st)%Q) /\ forall x, In x l -> (s_min st <= x)%Q) /\
  (s_range st == s_max st - s_min st)%Q /\
  exists m v, s_mean st = Some m /\ (m * inject_Z (Z.of_nat (length l)) == qsum l)%Q /\
              s_std st = Some (sqrt v) /\
              (v * inject_Z (Z.of_nat (length l)) == qsum (map (fun x => (x - m) * (x - m)) l))%Q.

Definition in_float_range (x : Q) : Prop := (- FLT_MAX <= x)%Q /\ (x <= FLT_MAX)%Q.

(** Layer [j] of a list of cells. *)
Definition column (values : list (list Q)) (j : nat) : list Q := map (fun c => nth j c 0%Q) values.
