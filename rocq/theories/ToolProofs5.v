(** Proofs about the raster tool: which items become data sets; when options are accepted. *)
From Coq Require Import ZArith Ascii String List Bool Lia.
From Verif Require Import Base StrModel StrSpec StrProofs MapModel MapProofs FsModel BasicModel SubsetModel AppModel AppSpec AppProofs ToolModel ToolSpec ToolProofs ToolProofs2 ToolProofs3 ToolProofs4.
Import ListNotations.
Open Scope Z_scope.
Open Scope outcome_scope.

Lemma Forall2_impl' {A B} (P Q : A -> B -> Prop) l l' : (forall a b, P a b -> Q a b) -> Forall2 P l l' -> Forall2 Q l l'.
Proof. intros H. induction 1; constructor; auto. Qed.

Section Kept.
Context {V : Type}.
Variable strtod : bytes -> V * nat.
Variable nd : V.
Variable ex : bytes -> bool.
Notation istep := (item_step strtod nd ex).

Notation has_table := (has_table strtod).

Lemma items_ok l : Forall (fun it => it <> []) l -> forall v, exists v', items strtod nd ex v l = Ok v'.
Proof.
  induction 1 as [|it l N _ IH]; intros v; [eexists; reflexivity|]. cbn [items].
  assert (S : exists v1, istep v it = Ok v1).
  { destruct it as [|f0 rest]; [congruence|]. unfold item_step.
    assert (G : forall (w : vars V) (c : bool) (w' : vars V), exists v1, (if c then Ok w' else Ok w) = Ok v1) by (intros ? [|] ?; eexists; reflexivity).
    rewrite nodata_of_field.
    destruct (match nth_error (f0 :: rest) 5 with Some s => parse_key_values strtod s | None => ([], false) end) as [tab recls].
    destruct f0 as [|c f0].
    - destruct rest; [eexists; reflexivity|]. change (SplitString_d [] ",") with (@nil bytes). apply G.
    - destruct (SplitString_d (c :: f0) ",") as [|[|c' s] [|y ys]]; try (apply G).
      destruct (match rest with [] => [] | s :: _ => s end); [eexists; reflexivity|apply G]. }
  destruct S as [v1 S]. rewrite S. apply IH.
Qed.

(** Formats once the input format is "file", or may only become so. *)
Lemma fmts_file (v : vars V) ins : v_infmt v = SFILE \/ (v_infmt v = UNKNOWNFMT /\ v_mongo v = false) ->
  v_infmt (item_fmts ex v ins) = (if FilesExist ex ins then SFILE else v_infmt v) /\
  v_outfmt (item_fmts ex v ins) = (if v_mongo v then GFS else match v_outfmt v with UNKNOWNFMT => SFILE | f => f end).
Proof.
  intros H. unfold item_fmts. cbn [set_fmts v_infmt v_outfmt].
  destruct H as [-> | [-> ->]]; destruct (FilesExist ex ins); cbn; rewrite ?andb_false_r; cbn;
    (split; [reflexivity|]); destruct (v_outfmt v); cbn; try destruct (v_mongo v); reflexivity.
Qed.
Lemma fmts_gfs (v : vars V) ins : v_infmt v = GFS -> v_infmt (item_fmts ex v ins) = GFS /\
  v_outfmt (item_fmts ex v ins) = (if v_mongo v then GFS else match v_outfmt v with UNKNOWNFMT => SFILE | f => f end).
Proof.
  intros H. unfold item_fmts. cbn [set_fmts v_infmt v_outfmt]. rewrite H. cbn. split; [reflexivity|].
  destruct (v_outfmt v); cbn; try destruct (v_mongo v); reflexivity.
Qed.

Definition out_of (v : vars V) : datafmt := if v_mongo v then GFS else match v_outfmt v with UNKNOWNFMT => SFILE | f => f end.

Lemma items_file l : forall v v', items strtod nd ex v l = Ok v' ->
  v_infmt v = SFILE \/ (v_infmt v = UNKNOWNFMT /\ v_mongo v = false) ->
  exists js, appended v v' js /\
    Forall2 (fun it j => says strtod nd (v_type v) it j /\ (FilesExist ex (item_ins it) = true -> j_infmt j = SFILE) /\ j_infmt j <> GFS /\ j_outfmt j = out_of v)
      (filter (fun it => negb (blank it) && (FilesExist ex (item_ins it) || has_table it)) l) js.
Proof.
  induction l as [|it l IH]; intros v v' E H; cbn [items] in E.
  { injection E as <-. exists []. split; [|constructor]. unfold appended. cbn [map]. rewrite !app_nil_r. auto 20. }
  destruct (istep v it) as [v1| |] eqn:S; try discriminate. cbn [obind] in E.
  pose proof (istep_globals _ _ _ _ _ _ S) as G1.
  assert (GM : v_mongo v1 = v_mongo v /\ v_type v1 = v_type v) by (unfold same_globals in G1; tauto). destruct GM as [GM GT].
  cbn [filter].
  apply istep_cases in S. destruct S as [[B ->]|[B (js1 & -> & S)]]; rewrite B; cbn [negb andb].
  { destruct (IH _ _ E H) as (js & A & F). exists js. auto. }
  set (v1 := set_lists _ _ _ _ _ _ _ _ _ _ _) in *.
  destruct (fmts_file v (item_ins it) H) as [FI FO]. fold (out_of v) in FO.
  assert (I1 : v_infmt v1 = (if FilesExist ex (item_ins it) then SFILE else v_infmt v)) by exact FI.
  assert (O1 : v_outfmt v1 = out_of v) by exact FO.
  assert (H1 : v_infmt v1 = SFILE \/ v_infmt v1 = UNKNOWNFMT /\ v_mongo v1 = false).
  { rewrite I1, GM. destruct (FilesExist ex (item_ins it)); [left; reflexivity|exact H]. }
  assert (O2 : out_of v1 = out_of v).
  { unfold out_of at 1. rewrite GM, O1. unfold out_of. destruct (v_mongo v); [reflexivity|]. destruct (v_outfmt v); reflexivity. }
  destruct (IH _ _ E H1) as (js & A & F). rewrite GT, O2 in F.
  assert (AA : appended v v' (js1 ++ js)).
  { destruct A as (A1 & A2 & A3 & A4 & A5 & A6 & A7 & A8 & A9 & A10).
    unfold appended. rewrite !map_app, !app_assoc. repeat split; assumption. }
  assert (TK : taken strtod ex (v_infmt (item_fmts ex v (item_ins it))) it = FilesExist ex (item_ins it) || has_table it).
  { unfold taken, has_table. rewrite FI. destruct (FilesExist ex (item_ins it)); cbn; [reflexivity|].
    destruct H as [-> | [-> _]]; cbn; rewrite !orb_false_r; reflexivity. }
  rewrite TK in S. exists (js1 ++ js). split; [exact AA|].
  destruct (FilesExist ex (item_ins it) || has_table it).
  - destruct S as (j & -> & S1 & S2 & S3). cbn [app]. constructor; [|exact F].
    rewrite I1 in S2. rewrite O1 in S3.
    split; [exact S1|]. split; [intros X; rewrite S2, X; reflexivity|]. split; [|exact S3].
    rewrite S2. destruct (FilesExist ex (item_ins it)); [discriminate|]. destruct H as [-> | [-> _]]; discriminate.
  - subst js1. exact F.
Qed.

Lemma items_gfs l : forall v v', items strtod nd ex v l = Ok v' -> v_infmt v = GFS ->
  exists js, appended v v' js /\
    Forall2 (fun it j => says strtod nd (v_type v) it j /\ j_infmt j = GFS /\ j_outfmt j = out_of v) (filter (fun it => negb (blank it)) l) js.
Proof.
  induction l as [|it l IH]; intros v v' E H; cbn [items] in E.
  { injection E as <-. exists []. split; [|constructor]. unfold appended. cbn [map]. rewrite !app_nil_r. auto 20. }
  destruct (istep v it) as [v1| |] eqn:S; try discriminate. cbn [obind] in E.
  pose proof (istep_globals _ _ _ _ _ _ S) as G1.
  assert (GM : v_mongo v1 = v_mongo v /\ v_type v1 = v_type v) by (unfold same_globals in G1; tauto). destruct GM as [GM GT].
  cbn [filter].
  apply istep_cases in S. destruct S as [[B ->]|[B (js1 & -> & S)]]; rewrite B; cbn [negb].
  { destruct (IH _ _ E H) as (js & A & F). exists js. auto. }
  set (v1 := set_lists _ _ _ _ _ _ _ _ _ _ _) in *.
  destruct (fmts_gfs v (item_ins it) H) as [FI FO]. fold (out_of v) in FO.
  assert (I1 : v_infmt v1 = GFS) by exact FI.
  assert (O1 : v_outfmt v1 = out_of v) by exact FO.
  assert (O2 : out_of v1 = out_of v).
  { unfold out_of at 1. rewrite GM, O1. unfold out_of. destruct (v_mongo v); [reflexivity|]. destruct (v_outfmt v); reflexivity. }
  destruct (IH _ _ E I1) as (js & A & F). rewrite GT, O2 in F.
  assert (AA : appended v v' (js1 ++ js)).
  { destruct A as (A1 & A2 & A3 & A4 & A5 & A6 & A7 & A8 & A9 & A10).
    unfold appended. rewrite !map_app, !app_assoc. repeat split; assumption. }
  assert (TK : taken strtod ex (v_infmt (item_fmts ex v (item_ins it))) it = true).
  { unfold taken. rewrite FI. cbn. apply orb_true_r. }
  rewrite TK in S. exists (js1 ++ js). split; [exact AA|].
  destruct S as (j & -> & S1 & S2 & S3). cbn [app]. constructor; [|exact F]. rewrite S2, S3. auto.
Qed.

(** The first item decides, when nothing else did and there is a database. *)
Lemma items_first it l v v' : items strtod nd ex v (it :: l) = Ok v' -> v_infmt v = UNKNOWNFMT -> v_mongo v = true -> blank it = false ->
  exists js, appended v v' js /\
    (FilesExist ex (item_ins it) = true ->
      Forall2 (fun it j => says strtod nd (v_type v) it j /\ j_infmt j <> GFS /\ j_outfmt j = GFS)
        (filter (fun it => negb (blank it) && (FilesExist ex (item_ins it) || has_table it)) (it :: l)) js) /\
    (FilesExist ex (item_ins it) = false -> item_ins it <> [] ->
      Forall2 (fun it j => says strtod nd (v_type v) it j /\ j_infmt j = GFS /\ j_outfmt j = GFS)
        (filter (fun it => negb (blank it)) (it :: l)) js).
Proof.
  intros E HU HM HB. cbn [items] in E.
  destruct (istep v it) as [v1| |] eqn:S; try discriminate. cbn [obind] in E.
  pose proof (istep_globals _ _ _ _ _ _ S) as G1.
  assert (GM : v_mongo v1 = v_mongo v /\ v_type v1 = v_type v) by (unfold same_globals in G1; tauto). destruct GM as [GM GT].
  apply istep_cases in S. destruct S as [[B _]|[B (js1 & EV & S)]]; [congruence|].
  assert (FI : v_infmt (item_fmts ex v (item_ins it)) = if FilesExist ex (item_ins it) then SFILE else match item_ins it with [] => UNKNOWNFMT | _ => GFS end).
  { unfold item_fmts. cbn [set_fmts v_infmt]. rewrite HU, HM. destruct (FilesExist ex (item_ins it)), (item_ins it); reflexivity. }
  assert (FO : v_outfmt (item_fmts ex v (item_ins it)) = GFS).
  { unfold item_fmts. cbn [set_fmts v_outfmt]. rewrite HM. destruct (v_outfmt v); reflexivity. }
  set (W := set_lists _ _ _ _ _ _ _ _ _ _ _) in EV.
  assert (I1 : v_infmt v1 = v_infmt (item_fmts ex v (item_ins it))) by (rewrite EV; reflexivity).
  assert (O1 : v_outfmt v1 = v_outfmt (item_fmts ex v (item_ins it))) by (rewrite EV; reflexivity).
  rewrite FI in I1, S. rewrite FO in O1.
  assert (AA : forall js, appended v1 v' js -> appended v v' (js1 ++ js)).
  { intros js A. rewrite EV in A. subst W. destruct A as (A1 & A2 & A3 & A4 & A5 & A6 & A7 & A8 & A9 & A10).
    unfold appended. rewrite !map_app, !app_assoc. repeat split; assumption. }
  assert (OV : out_of v1 = GFS) by (unfold out_of; rewrite GM, HM; reflexivity).
  destruct (FilesExist ex (item_ins it)) eqn:FE.
  - destruct (items_file _ _ _ E (or_introl I1)) as (js & A & F). rewrite GT, OV in F.
    exists (js1 ++ js). split; [apply AA; exact A|]. split; [|discriminate]. intros _.
    assert (TK : taken strtod ex SFILE it = true) by (unfold taken; rewrite FE; reflexivity). rewrite TK in S. destruct S as (j & -> & S1 & S2 & S3).
    cbn [filter]. rewrite HB, FE. cbn [negb andb orb app]. constructor.
    + rewrite S2, S3, O1, I1. split; [exact S1|]. split; [discriminate|reflexivity].
    + eapply Forall2_impl'. 2: exact F. cbn. intros a b (X1 & X2 & X3 & X4). auto.
  - destruct (item_ins it) as [|i0 il] eqn:EI.
    + destruct (items_jobs _ _ _ _ _ _ E) as (_ & _ & js & _ & _ & _ & A). exists (js1 ++ js).
      split; [apply AA; exact A|]. split; [discriminate|congruence].
    + destruct (items_gfs _ _ _ E I1) as (js & A & F). rewrite GT, OV in F.
      exists (js1 ++ js). split; [apply AA; exact A|]. split; [discriminate|]. intros _ _.
      assert (TK : taken strtod ex GFS it = true) by (unfold taken; cbn; apply orb_true_r). rewrite TK in S. destruct S as (j & -> & S1 & S2 & S3).
      cbn [filter]. rewrite HB. cbn [negb app]. constructor; [|exact F]. rewrite S2, S3, O1, I1. auto.
Qed.
End Kept.
