(** Proofs about the raster tool: accepted options, options that items do not see, and the calls made. *)
From Coq Require Import ZArith Ascii String List Bool Lia.
From Verif Require Import Base StrModel StrSpec StrProofs MapModel MapProofs FsModel BasicModel SubsetModel AppModel AppSpec AppProofs ToolModel ToolSpec ToolProofs ToolProofs2 ToolProofs3 ToolProofs4 ToolProofs5.
Import ListNotations.
Open Scope Z_scope.
Open Scope outcome_scope.

Section Accept.
Context {V : Type}.
Variable strtod : bytes -> V * nat.
Variable nd : V.
Variable ex : bytes -> bool.
Variable conn : list bytes -> option bool.

Notation accepted := (accepted ex).

Lemma step_accepts v kv : accepted kv -> exists v', option_step strtod nd ex conn v kv = Ok (Go v').
Proof.
  destruct kv as [k vals]. intros (H0 & H1 & H2 & H3 & H4 & H5). cbn [fst snd] in *. unfold option_step. cbn [fst snd].
  destruct vals as [|s t]; [congruence|]. change (at_ (s :: t) 0) with (Ok s). cbn [obind hd] in *.
  destruct (key_is k ["MODE"%string]) eqn:K1.
  { apply key_is1 in K1. destruct (StringToIOMode s); try (eexists; reflexivity). destruct (H1 K1 eq_refl). }
  destruct (key_is k ["IN"%string; "INPUT"%string]) eqn:K2.
  { apply key_is2 in K2. destruct (H2 K2) as [[f [|p ps]] E]; rewrite E; eexists; reflexivity. }
  destruct (key_is k ["MASK"%string]) eqn:K3.
  { apply key_is1 in K3. destruct (H3 K3) as (f & p & ps & E); rewrite E; eexists; reflexivity. }
  destruct (key_is k ["OUT"%string; "OUTPUT"%string]) eqn:K4.
  { apply key_is2 in K4. destruct (H4 K4) as [[[f [|p ps]]|] E]; rewrite E; eexists; reflexivity. }
  destruct (key_is k ["OUTDATATYPE"%string]); [eexists; reflexivity|].
  destruct (key_is k ["DEFAULT"%string; "DEFAULTVALUE"%string]); [eexists; reflexivity|].
  destruct (key_is k ["NODATA"%string; "NODATAVALUE"%string]); [eexists; reflexivity|].
  destruct (key_is k ["RECLASS"%string]); [destruct (parse_key_values strtod s); eexists; reflexivity|].
  destruct (key_is k ["MONGO"%string; "MONGODB"%string]) eqn:K5.
  { apply key_is2 in K5. apply H5 in K5. replace (length (s :: t) <? 4)%nat with false by (symmetry; apply Nat.ltb_ge; exact K5). eexists; reflexivity. }
  destruct (key_is k ["THREAD"%string]); [destruct (IsInt s); eexists; reflexivity|].
  destruct (key_is k ["INCLUDE_NODATA"%string]); [destruct (IsInt s); eexists; reflexivity|].
  eexists; reflexivity.
Qed.
Lemma options_accept l : Forall accepted l -> forall v, exists v', options strtod nd ex conn v l = Ok (Go v').
Proof.
  induction 1 as [|kv l A _ IH]; intros v; [eexists; reflexivity|]. cbn [options].
  destruct (step_accepts v kv A) as [v1 E]. rewrite E. apply IH.
Qed.
Lemma keys_accept keys : Forall accepted keys -> exists v', options strtod nd ex conn (vars0 nd) (by_key keys) = Ok (Go v').
Proof.
  intros H. apply options_accept. rewrite Forall_forall in *. intros x I. apply H.
  eapply Permutation.Permutation_in; [|exact I]. apply by_key_perm.
Qed.
End Accept.

Section Core.
Context {V : Type}.
Variable strtod : bytes -> V * nat.
Variable nd : V.
Variable ex : bytes -> bool.

(** The same data sets and formats. *)
Definition core (v w : vars V) : Prop :=
  v_infmt v = v_infmt w /\ v_outfmt v = v_outfmt w /\ v_mongo v = v_mongo w /\
  v_in_fmts v = v_in_fmts w /\ v_ins v = v_ins w /\ v_out_fmts v = v_out_fmts w /\ v_outs v = v_outs w /\
  v_defaults v = v_defaults w /\ v_upds v = v_upds w /\ v_nodatas v = v_nodatas w /\ v_types v = v_types w /\
  v_reclss v = v_reclss w /\ v_tables v = v_tables w.

Lemma istep_core v w it v' w' : item_step strtod nd ex v it = Ok v' -> item_step strtod nd ex w it = Ok w' ->
  core v w -> v_type v = v_type w \/ (length it <= 4)%nat -> core v' w'.
Proof.
  intros E F C T.
  destruct C as (C1 & C2 & C3 & C4 & C5 & C6 & C7 & C8 & C9 & C10 & C11 & C12 & C13).
  assert (TY : match nth_error it 4 with None => RDT_Unknown | Some s => match StringToRasterDataType s with RDT_Unknown => v_type v | t => t end end
             = match nth_error it 4 with None => RDT_Unknown | Some s => match StringToRasterDataType s with RDT_Unknown => v_type w | t => t end end).
  { destruct T as [-> | T]; [reflexivity|]. apply nth_error_None in T. rewrite T. reflexivity. }
  apply istep_cases in E. apply istep_cases in F.
  destruct E as [[B ->]|[B (js & EV & S)]]; destruct F as [[B' ->]|[B' (js' & EW & S')]]; try congruence.
  { unfold core. auto 20. }
  assert (FM : v_infmt (item_fmts ex v (item_ins it)) = v_infmt (item_fmts ex w (item_ins it)) /\
               v_outfmt (item_fmts ex v (item_ins it)) = v_outfmt (item_fmts ex w (item_ins it))).
  { unfold item_fmts. cbn [set_fmts v_infmt v_outfmt]. rewrite C1, C2, C3. auto. }
  destruct FM as [FM1 FM2]. rewrite FM1 in S.
  assert (J : js = js').
  { destruct (taken strtod ex (v_infmt (item_fmts ex w (item_ins it))) it); [|congruence].
    destruct S as (j & -> & S1 & S2 & S3), S' as (j' & -> & S1' & S2' & S3'). f_equal.
    rewrite EV in S2, S3. rewrite EW in S2', S3'. cbn [set_lists v_infmt v_outfmt] in *.
    destruct j as [a1 a2 a3 a4 a5 a6 a7 a8 a9 a10], j' as [b1 b2 b3 b4 b5 b6 b7 b8 b9 b10]. unfold says in *. cbn [j_infmt j_ins j_outfmt j_out j_default j_upd j_nodata j_type j_recls j_table] in *.
    destruct S1 as (X1 & X2 & X3 & X4 & X5 & X6 & X7), S1' as (Y1 & Y2 & Y3 & Y4 & Y5 & Y6 & Y7).
    assert (P : (a10, a9) = (b10, b9)) by (transitivity (match nth_error it 5 with None => ([], false) | Some s => parse_key_values strtod s end); [exact X7|symmetry; exact Y7]).
    injection P as P1 P2. f_equal; congruence. }
  subst js'. subst v' w'. unfold core. cbn [set_lists v_infmt v_outfmt v_mongo v_in_fmts v_ins v_out_fmts v_outs v_defaults v_upds v_nodatas v_types v_reclss v_tables].
  rewrite FM1, FM2, C4, C5, C6, C7, C8, C9, C10, C11, C12, C13. repeat split. exact C3.
Qed.

Lemma items_core l : forall v w v' w', items strtod nd ex v l = Ok v' -> items strtod nd ex w l = Ok w' ->
  core v w -> v_type v = v_type w \/ Forall (fun it => (length it <= 4)%nat) l -> core v' w'.
Proof.
  induction l as [|it l IH]; intros v w v' w' E F C T; cbn [items] in E, F.
  { injection E as <-. injection F as <-. exact C. }
  destruct (item_step strtod nd ex v it) as [v1| |] eqn:S; try discriminate.
  destruct (item_step strtod nd ex w it) as [w1| |] eqn:S'; try discriminate. cbn [obind] in *.
  apply (IH _ _ _ _ E F).
  - eapply istep_core; [exact S|exact S'|exact C|]. destruct T as [T|T]; [auto|]. right. inversion T. assumption.
  - apply istep_globals in S. apply istep_globals in S'. unfold same_globals in S, S'.
    destruct T as [T|T]; [left; intuition congruence|]. right. inversion T. assumption.
Qed.
End Core.
