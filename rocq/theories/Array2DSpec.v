(** What tables are as values (for C88): a program over variables that hold tables,
    with no memory. *)
From Coq Require Import ZArith List Bool.
From Verif Require Import Base Array2DModel.
Import ListNotations.
Open Scope Z_scope.

Section S.
Context {T : Type}.
(** Sizes as reported, and the elements; a table without elements is what a variable
    declared without sizes or moved from holds. *)
Record table := mkT { t_rows : Z; t_cols : Z; t_elems : option (Z -> Z -> T) }.
Definition vars := nat -> option table.
Definition set (f : vars) (i : nat) (o : option table) : vars := fun k => if Nat.eqb k i then o else f k.
Definition sizes (r c : Z) : Prop := 0 <= r < 2 ^ 32 /\ 0 <= c < 2 ^ 32.
Definition filled (t : table) : Prop := t_elems t <> None.

(** What a statement means for tables as values, if it may be used: copies are of
    filled tables, elements exist, the number of elements fits 32 bits. *)
Inductive means : vars -> op T -> vars -> Prop :=
| m_declare s i : s i = None -> means s (Declare i) (set s i (Some (mkT 0 0 None)))
| m_make s i r c v : s i = None -> sizes r c -> r <> 0 -> c <> 0 -> r * c < 2 ^ 32 ->
    means s (Make i r c v) (set s i (Some (mkT r c (Some (fun _ _ => v)))))
| m_make0 s i r c v : s i = None -> sizes r c -> r = 0 \/ c = 0 -> means s (Make i r c v) s
| m_copy s i j t : s i = None -> s j = Some t -> filled t -> means s (CopyOf i j) (set s i (Some t))
| m_move s i j t : s i = None -> s j = Some t ->
    means s (MoveOf i j) (set (set s j (Some (mkT (t_rows t) (t_cols t) None))) i (Some t))
| m_assign s i j t u : i <> j -> s i = Some u -> s j = Some t -> filled t -> means s (Assign i j) (set s i (Some t))
| m_assign_self s i t : s i = Some t -> means s (Assign i i) s
| m_moveto s i j t u : i <> j -> s i = Some u -> s j = Some t -> means s (MoveTo i j) (set (set s i (Some t)) j (Some u))
| m_moveto_self s i t : s i = Some t -> means s (MoveTo i i) s
| m_create s i r c v t : s i = Some t -> sizes r c -> r <> 0 -> c <> 0 -> r * c < 2 ^ 32 ->
    means s (Create i r c v) (set s i (Some (mkT r c (Some (fun _ _ => v)))))
| m_create0 s i r c v t : s i = Some t -> sizes r c -> r = 0 \/ c = 0 -> means s (Create i r c v) s
| m_set s i r c v t f : s i = Some t -> t_elems t = Some f -> 0 <= r < t_rows t -> 0 <= c < t_cols t ->
    means s (Set_ i r c v) (set s i (Some (mkT (t_rows t) (t_cols t) (Some (fun x y => if (x =? r) && (y =? c) then v else f x y)))))
| m_get s i r c t f : s i = Some t -> t_elems t = Some f -> 0 <= r < t_rows t -> 0 <= c < t_cols t -> means s (Get i r c) s
| m_end s i t : s i = Some t -> means s (End i) (set s i None).

Inductive mean : vars -> list (op T) -> vars -> Prop :=
| mean_nil s : mean s [] s
| mean_cons s s' s'' o t : means s o s' -> mean s' t s'' -> mean s (o :: t) s''.
Definition no_vars : vars := fun _ => None.
End S.
