(** Property theorems about array helpers (C08-C10, C59). *)
From Coq Require Import ZArith List Bool Lia Permutation.
From Verif Require Import Base RasterModel RasterSpec ListLib ArrayModel ArrayProofs.
Import ListNotations.
Open Scope Z_scope.

(** ** C08 *)
Theorem C08_init_1d : forall (T : Type) (h : heap T) row v ord, 0 < row -> schedule row ord ->
  Initialize1DArray true ord h None row v =
  Ok (h ++ [Some (repeat (CVal v) (Z.to_nat row))], Some (length h, 0), true).
Proof. exact @Init1D_ok. Qed.
Print Assumptions C08_init_1d.

Theorem C08_init_1d_refused : forall (T : Type) (h : heap T) data row v ord ok,
  data <> None \/ row <= 0 \/ ok = false ->
  Initialize1DArray ok ord h data row v = Ok (h, data, false).
Proof. exact @Init1D_no. Qed.
Print Assumptions C08_init_1d_refused.

(** The copying variant. *)
Theorem C08_init_1d_copy : forall (T : Type) (cast : T -> T) (h : heap T) row b o xs ord,
  0 <= row -> schedule row ord -> 0 <= o ->
  (exists c, nth_error h b = Some (Some c) /\
     forall i x, nth_error xs i = Some x -> nth_error c (Z.to_nat o + i) = Some (CVal x)) ->
  Z.of_nat (length xs) = row ->
  Initialize1DArrayFrom cast true ord h None row (Some (b, o)) =
  Ok (h ++ [Some (map (fun x => CVal (cast x)) xs)], Some (length h, 0), true).
Proof. exact @Init1DFrom_ok. Qed.
Print Assumptions C08_init_1d_copy.

(** Its failure on a missing source is not free of effects. *)
Theorem C08_copy_failure_refuted : exists (h h' : heap Z) p,
  Initialize1DArrayFrom (fun x => x) true [] h None 3 None = Ok (h', Some p, false) /\ length h' = S (length h).
Proof. exists [], [Some [CUndef; CUndef; CUndef]], (0%nat, 0). split; reflexivity. Qed.
Print Assumptions C08_copy_failure_refuted.

Example C08_ex : Initialize1DArray true [2;0;1]%nat [] None 3 7 = Ok ([Some [CVal 7; CVal 7; CVal 7]], Some (0%nat, 0), true)
  /\ schedule 3 [2;0;1]%nat.
Proof.
  split; [reflexivity|]. unfold schedule. cbn. apply Permutation_sym.
  apply perm_trans with [0;2;1]%nat; [apply perm_skip, perm_swap|apply perm_swap].
Qed.

(** ** C09 *)
Theorem C09_init_2d : forall (T : Type) (h : heap T) row col v ord,
  0 <= row -> 0 <= col -> schedule (row * col) ord ->
  exists h', Initialize2DArray true true ord h None row col v = Ok (h', Some (length h, 0), true) /\
    mat h' (Some (length h, 0)) row col (length h) (S (length h)) (repeat v (Z.to_nat (row * col))) /\
    length h' = S (S (length h)) /\ (forall b, (b < length h)%nat -> nth_error h' b = nth_error h b).
Proof. exact @Init2D_ok. Qed.
Print Assumptions C09_init_2d.

(** Every cell of such an array can be read and written in place; after any
    sequence of writes each cell reads as the last value written to it. *)
Theorem C09_writes : forall (T : Type) ws (h : heap T) p rows cols pb pool M,
  mat h p rows cols pb pool M ->
  Forall (fun w => 0 <= fst (fst w) < rows /\ 0 <= snd (fst w) < cols) ws ->
  exists h' M', writes2 h p ws = Ok h' /\ mat h' p rows cols pb pool M' /\
    (forall b, b <> pool -> nth_error h' b = nth_error h b) /\
    forall i j, 0 <= i < rows -> 0 <= j < cols ->
      read2 h' p i j = match find (fun w => (fst (fst w) =? i) && (snd (fst w) =? j)) (rev ws) with
                       | Some w => Ok (snd w) | None => read2 h p i j end.
Proof. exact @writes_last. Qed.
Print Assumptions C09_writes.

(** What [mat] says about reads: row-major in one block. *)
Theorem C09_read : forall (T : Type) (h : heap T) p rows cols pb pool M i j,
  mat h p rows cols pb pool M -> 0 <= i < rows -> 0 <= j < cols ->
  exists x, nth_error M (Z.to_nat (i * cols + j)) = Some x /\ read2 h p i j = Ok x.
Proof. exact @mat_read. Qed.
Print Assumptions C09_read.

(** Release frees the two blocks, once each, and nothing else. *)
Theorem C09_release : forall (T : Type) (h : heap T) p rows cols pb pool M,
  mat h p rows cols pb pool M -> 0 < rows ->
  Release2DArray h p = Ok (upd (upd h pool None) pb None, None).
Proof. exact @Release2D_ok. Qed.
Print Assumptions C09_release.

(** An array with no row cannot be released, and neither can what a failed pool
    allocation leaves behind. *)
Theorem C09_zero_rows_refuted : exists h' p,
  Initialize2DArray true true [] ([] : heap Z) None 0 2 7 = Ok (h', p, true) /\ Release2DArray h' p = UB.
Proof. do 2 eexists. split; reflexivity. Qed.
Print Assumptions C09_zero_rows_refuted.

Theorem C09_pool_failure_leak : forall (h : heap Z) row col v ord, 0 < row -> 0 <= col ->
  exists h' p, Initialize2DArray true false ord h None row col v = Ok (h', Some p, false) /\
    length h' = S (length h) /\ Release2DArray h' (Some p) = UB.
Proof. exact @pool_failure. Qed.
Print Assumptions C09_pool_failure_leak.

Example C09_ex : exists h1 h2 p, Initialize2DArray true true [3;1;0;2]%nat [] None 2 2 0 = Ok (h1, p, true) /\
  writes2 h1 p [(0, 1, 5); (1, 0, 6); (0, 1, 8)] = Ok h2 /\ read2 h2 p 0 1 = Ok 8 /\ read2 h2 p 1 0 = Ok 6 /\
  read2 h2 p 1 1 = Ok 0 /\ Release2DArray h2 p = Ok ([None; None], None).
Proof. do 3 eexists. repeat (split; [vm_compute; reflexivity|]). vm_compute; reflexivity. Qed.

(** ** C10 *)
Theorem C10_in : forall (T : Type) (eqb : T -> T -> bool) v l,
  ValueInVector eqb v l = true <-> exists x, In x l /\ eqb x v = true.
Proof. exact @ValueInVector_spec. Qed.
Print Assumptions C10_in.

Theorem C10_remove : forall (T : Type) (eqb : T -> T -> bool) v l,
  RemoveValueInVector eqb v l = filter (fun x => negb (eqb x v)) l.
Proof. exact @RemoveValue_spec. Qed.
Print Assumptions C10_remove.

(** With a proper equality: nothing equal to [v] remains, and every other
    element keeps its multiplicity. *)
Theorem C10_remove_count : forall (T : Type) (dec : forall a b : T, {a = b} + {a <> b}) v l x,
  count_occ dec (RemoveValueInVector (fun a b => if dec a b then true else false) v l) x =
  if dec x v then 0%nat else count_occ dec l x.
Proof. exact @RemoveValue_count. Qed.
Print Assumptions C10_remove_count.

Theorem C10_in_after_remove : forall (T : Type) (eqb : T -> T -> bool) v l,
  ValueInVector eqb v (RemoveValueInVector eqb v l) = false.
Proof. exact @ValueIn_Remove. Qed.
Print Assumptions C10_in_after_remove.

Example C10_ex : RemoveValueInVector Z.eqb 2 [1;2;3;2;2;4] = [1;3;4] /\ ValueInVector Z.eqb 2 [1;2;3] = true.
Proof. split; reflexivity. Qed.

(** ** C59 *)
Theorem C59_jagged : forall (T : Type) (toint : T -> option Z) (cast : T -> T) (h : heap T) b t0 rs rest ord,
  toint t0 = Some (Z.of_nat (length rs)) -> Forall (counted toint) rs ->
  nth_error h b = Some (Some (map CVal (t0 :: flat rs) ++ rest)) ->
  schedule (Z.of_nat (length (flat rs))) ord ->
  exists h', InitializeJagged toint cast true true ord h (Some (b, 0)) =
    Ok (h', Some (length h, 0), true, Z.of_nat (length rs), fold_left Z.max (lens rs) (-1)) /\
  (forall i n r j x, nth_error rs i = Some (n, r) -> nth_error (n :: r) j = Some x ->
     read2 h' (Some (length h, 0)) (Z.of_nat i) (Z.of_nat j) = Ok (cast x)) /\
  (forall b', (b' < length h)%nat -> nth_error h' b' = nth_error h b') /\
  (rs <> [] -> Release2DArray h' (Some (length h, 0)) = Ok (h ++ [None; None], None)).
Proof. exact @Jagged_ok. Qed.
Print Assumptions C59_jagged.

Example C59_ex : exists h' p,
  InitializeJagged Some (fun x => x) true true [0;1;2;3;4]%nat
     [Some (map CVal [2; 1; 10; 2; 20; 21])] (Some (0%nat, 0)) = Ok (h', p, true, 2, 2) /\
  read2 h' p 0 1 = Ok 10 /\ read2 h' p 1 0 = Ok 2 /\ read2 h' p 1 2 = Ok 21.
Proof. do 2 eexists. repeat (split; [vm_compute; reflexivity|]). vm_compute; reflexivity. Qed.
