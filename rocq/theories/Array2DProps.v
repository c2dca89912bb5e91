(** C88, C89: tables (Array2D) are values. *)
From Coq Require Import ZArith List Bool Lia.
From Verif Require Import Base RasterModel ArrayModel ArrayProofs Array2DModel Array2DSpec Array2DProofs.
Import ListNotations.
Open Scope Z_scope.
Open Scope outcome_scope.

(** C88: a program that means [A] for tables as values runs without undefined
    behaviour, and then every variable has the sizes and elements of [A]. *)
Theorem C88_tables_are_values : forall (T : Type) (dflt : T) (os : list (op T)) (A : vars),
  mean no_vars os A ->
  exists s, run dflt true start os = Ok s /\
    forall i, match A i with
              | None => s_var s i = None
              | Some t => exists a, s_var s i = Some a /\ a_rows a = t_rows t /\ a_cols a = t_cols t /\
                  match t_elems t with
                  | None => a_ptr a = None
                  | Some f => forall r c, 0 <= r < t_rows t -> 0 <= c < t_cols t -> read2 (s_heap s) (a_ptr a) r c = Ok (f r c)
                  end
              end.
Proof.
  intros T dflt os A HM. destruct (run_ok dflt _ _ _ _ _ inv_start HM) as (s & B & E & I). exists s. split; auto.
  intros i. pose proof I as (I1 & _). specialize (I1 i). destruct (A i) as [t|] eqn:Ei; [|apply (ok1_none _ _ _ I1)].
  destruct (ok1_some _ _ _ _ I1) as (a & Ea & Er & Ec). exists a. repeat split; auto. destruct (t_elems t) as [f|] eqn:Ef.
  - intros r c Hr Hc. destruct (inv_read _ _ _ _ _ _ _ _ _ I Ei Ef Hr Hc) as (a' & Ea' & R). congruence.
  - rewrite Ea in I1. cbn in I1. rewrite Ef in I1. tauto.
Qed.
Print Assumptions C88_tables_are_values.

(** C88: at every point there are two blocks of memory for each variable that holds
    elements ([l] lists those variables), and no others: nothing is leaked. *)
Theorem C88_two_blocks_each : forall (T : Type) (dflt : T) (os : list (op T)) (A : vars) (l : list nat),
  mean no_vars os A -> NoDup l -> (forall i, In i l <-> exists t, A i = Some t /\ filled t) ->
  exists s, run dflt true start os = Ok s /\
    length (filter (fun o => match o with Some _ => true | None => false end) (s_heap s)) = (2 * length l)%nat.
Proof.
  intros T dflt os A l HM N HL. destruct (run_ok dflt _ _ _ _ _ inv_start HM) as (s & B & E & I). exists s. split; auto.
  rewrite <- (inv_count _ _ _ _ _ I N HL). unfold alive. clear. generalize (s_heap s). intros h.
  assert (G : forall (h : heap T) (h0 : heap T), length (filter (fun o => match o with Some _ => true | None => false end) h) =
    length (filter (fun b => match nth_error (h0 ++ h) b with Some (Some _) => true | _ => false end) (seq (length h0) (length h)))).
  { clear h. induction h as [|o h IH]; intros h0; auto. cbn [length seq filter]. rewrite nth_error_app2, Nat.sub_diag by lia. cbn [nth_error].
    specialize (IH (h0 ++ [o])). rewrite app_length in IH. cbn [length] in IH. replace (length h0 + 1)%nat with (S (length h0)) in IH by lia.
    rewrite <- app_assoc in IH. cbn [app] in IH. destruct o; cbn [length]; rewrite IH; auto. }
  apply (G h []).
Qed.
Print Assumptions C88_two_blocks_each.

(** C89, refuted: "a variable can be copied whatever it holds". Copying or assigning
    a table without elements (declared without sizes, or moved from) is undefined. *)
Theorem C89_copy_of_empty_refuted : forall (T : Type) (dflt : T) (os : list (op T)) (A : vars) (i j : nat) t,
  mean no_vars os A -> A j = Some t -> t_elems t = None ->
  (A i = None -> run dflt true start (os ++ [CopyOf i j]) = UB) /\
  (A i <> None -> i <> j -> run dflt true start (os ++ [Assign i j]) = UB).
Proof. intros T dflt os A i j t HM HJ Hf. eapply copy_of_empty; eauto. Qed.
Print Assumptions C89_copy_of_empty_refuted.

(** C89, refuted: "a table has the sizes asked for". Whenever the number of elements
    needs more than 32 bits, construction succeeds but the last element is outside. *)
Theorem C89_too_large_refuted : forall (T : Type) (dflt : T) (s : state T) i r c v,
  s_var s i = None -> 0 < r < 2 ^ 32 -> 0 < c < 2 ^ 32 -> 2 ^ 32 <= r * c ->
  exists s', run dflt true s [Make i r c v] = Ok s' /\ run dflt true s [Make i r c v; Get i (r - 1) (c - 1)] = UB.
Proof.
  intros. destruct (too_large dflt s i r c v) as (s' & E1 & E2); auto. exists s'. cbn [run]. rewrite E1. cbn [obind]. rewrite E2. auto.
Qed.
Print Assumptions C89_too_large_refuted.

(** C89, refuted: "without memory, construction fails cleanly". *)
Theorem C89_no_memory_refuted : forall (T : Type) (dflt : T) (s : state T) i r c v,
  s_var s i = None -> 0 < r -> 0 < c -> run dflt false s [Make i r c v] = UB.
Proof. intros. cbn [run]. rewrite no_memory by auto. auto. Qed.
Print Assumptions C89_no_memory_refuted.

(** ** Cases *)
Definition sample : list (op Z) :=
  [Make 0 2 3 7; Set_ 0 1 2 9; CopyOf 1 0; Set_ 1 0 0 5; MoveOf 2 0; Declare 3; Assign 3 1; MoveTo 1 2; Create 2 4 1 8; Create 3 0 5 1; End 0].
Ltac meant :=
  lazymatch goal with
  | |- mean _ [] _ => apply mean_nil
  | |- mean _ (_ :: _) _ => eapply mean_cons;
      [first [apply m_declare; reflexivity
             |apply m_make; [reflexivity|unfold sizes; lia|lia|lia|lia]
             |apply m_make0; [reflexivity|unfold sizes; lia|lia]
             |eapply m_copy; [reflexivity|reflexivity|unfold filled; cbn; congruence]
             |eapply m_move; reflexivity
             |eapply m_assign; [lia|reflexivity|reflexivity|unfold filled; cbn; congruence]
             |eapply m_moveto; [lia|reflexivity|reflexivity]
             |eapply m_create; [reflexivity|unfold sizes; lia|lia|lia|lia]
             |eapply m_create0; [reflexivity|unfold sizes; lia|lia]
             |eapply m_set; [reflexivity|reflexivity|cbn; lia|cbn; lia]
             |eapply m_end; reflexivity]|]
  end.
Example C88_case : exists A t f, mean no_vars sample A /\ A 3%nat = Some t /\ t_elems t = Some f /\ t_rows t = 2 /\ f 0 0 = 5 /\ f 1 2 = 9 /\ A 0%nat = None
  /\ (exists t1 f1, A 1%nat = Some t1 /\ t_elems t1 = Some f1 /\ f1 0 0 = 7).
Proof.
  eexists. eexists. eexists. split; [unfold sample; repeat meant|]. split; [reflexivity|]. repeat split.
  eexists. eexists. split; [reflexivity|]. split; reflexivity.
Qed.
Example C89_case : exists A t, mean no_vars [Make 0%nat 2 3 7; MoveOf 1%nat 0%nat] A /\ A 0%nat = Some t /\ t_elems t = None /\ t_rows t = 2.
Proof. eexists. eexists. split; [repeat meant|]. repeat split. Qed.
Example C89_large_case : 0 < 65536 < 2 ^ 32 /\ 2 ^ 32 <= 65536 * 65537.
Proof. lia. Qed.
