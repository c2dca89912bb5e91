(** Property theorems about option and header maps (C06, C07). *)
From Coq Require Import ZArith Ascii String List Bool.
From Verif Require Import Base StrModel MapModel MapProofs.
Import ListNotations.
Open Scope Z_scope.

(** ** C06 *)
Theorem C06_copy : forall (V : Type) (src dst : smap V) k,
  NoDup (map fst src) ->
  lookup (CopyMap src dst) k = match lookup src k with Some v => Some v | None => lookup dst k end.
Proof. intros V src dst k H. exact (CopyMap_lookup src H dst k). Qed.
Print Assumptions C06_copy.

Theorem C06_update : forall (V : Type) (m : smap V) k v k',
  lookup (UpdateMap m k v) k' = if beqb k k' then Some v else lookup m k'.
Proof. exact @lookup_UpdateMap. Qed.
Print Assumptions C06_update.

(** Both keep every key bound once. *)
Theorem C06_keys_unique : forall (V : Type) (src dst : smap V) k v,
  NoDup (map fst dst) ->
  NoDup (map fst (UpdateMap dst k v)) /\ NoDup (map fst (CopyMap src dst)).
Proof. intros V src dst k v H. exact (conj (UpdateMap_NoDup dst k v H) (CopyMap_NoDup src dst H)). Qed.
Print Assumptions C06_keys_unique.

(** The maps a new raster starts with bind exactly the documented keys. *)
Theorem C06_initial_header : forall k,
  lookup InitialHeader k = if existsb (beqb k) header_keys then Some (-9999) else None.
Proof.
  intros k. unfold InitialHeader, header_keys. cbn [map fold_left existsb].
  rewrite !lookup_emplace. cbn [lookup].
  assert (S : forall a b, beqb a b = beqb b a).
  { intros a b. destruct (beqb a b) eqn:E.
    - apply beqb_true in E. subst. symmetry. apply beqb_refl.
    - symmetry. apply beqb_false. apply beqb_false in E. congruence. }
  rewrite !(S k). repeat match goal with |- context[beqb ?a k] => destruct (beqb a k) end; reflexivity.
Qed.
Print Assumptions C06_initial_header.

Example C06_ex :
  CopyMap [(str "b", 2); (str "c", 3)] [(str "a", 1); (str "b", 0)] = [(str "a", 1); (str "b", 2); (str "c", 3)].
Proof. reflexivity. Qed.

(** ** C07 *)
Theorem C07_last_writer_wins : forall (V : Type) (before after : list (mop V)) o m k v,
  Forall mop_ok (before ++ o :: after) -> mop_gives o k v ->
  (forall o' v', In o' after -> ~ mop_gives o' k v') ->
  lookup (fold_left (fun m o => mop_run o m) (before ++ o :: after) m) k = Some v.
Proof. exact @mops_last. Qed.
Print Assumptions C07_last_writer_wins.

Theorem C07_untouched : forall (V : Type) (ops : list (mop V)) k m,
  Forall mop_ok ops -> (forall o v, In o ops -> ~ mop_gives o k v) ->
  lookup (fold_left (fun m o => mop_run o m) ops m) k = lookup m k.
Proof. exact @mops_silent. Qed.
Print Assumptions C07_untouched.

Theorem C07_keys_unique : forall (V : Type) (ops : list (mop V)) m, NoDup (map fst m) ->
  NoDup (map fst (fold_left (fun m o => mop_run o m) ops m)).
Proof. exact @mops_NoDup. Qed.
Print Assumptions C07_keys_unique.

Example C07_ex :
  let h := [MUpdate (str "a") 1; MCopy [(str "a", 2); (str "b", 3)]; MUpdate (str "b") 4] in
  Forall mop_ok h /\ lookup (fold_left (fun m o => mop_run o m) h []) (str "a") = Some 2 /\
  lookup (fold_left (fun m o => mop_run o m) h []) (str "b") = Some 4.
Proof.
  split; [|split; reflexivity].
  repeat constructor; cbn; intros H; repeat (destruct H as [H|H]; try discriminate H); exact H.
Qed.
