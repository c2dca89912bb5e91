(** Proofs about the raster tool: data sets after options and items. *)
From Coq Require Import ZArith Ascii String List Bool Lia.
From Verif Require Import Base StrModel StrSpec StrProofs MapModel MapProofs FsModel BasicModel SubsetModel AppModel AppSpec AppProofs ToolModel ToolSpec ToolProofs ToolProofs2 ToolProofs3.
Import ListNotations.
Open Scope Z_scope.
Open Scope outcome_scope.

Lemma fmt_is_true a b : fmt_is a b = true <-> a = b.
Proof. destruct a, b; cbn; split; congruence. Qed.

Section Prep.
Context {V : Type}.
Variable strtod : bytes -> V * nat.
Variable nd : V.
Variable o : os.
Variable ex : bytes -> bool.
Variable conn : list bytes -> option bool.

(** Output formats after the options (mask_rasterio.cpp:376-381). *)
Definition settled_out (v : vars V) : datafmt :=
  let of1 := if negb (v_mongo v) && fmt_is (v_outfmt v) GFS then SFILE else v_outfmt v in
  if fmt_is of1 UNKNOWNFMT then v_infmt v else of1.

Lemma align_none (v v' : vars V) : v_ins v = [] -> align o v = Ok (Go v') ->
  same_globals v v' /\ v_infmt v' = v_infmt v /\ v_outfmt v' = settled_out v /\ v_in_fmts v' = v_in_fmts v /\ v_ins v' = [] /\ v_out_fmts v' = [] /\ v_outs v' = [] /\
  v_defaults v' = [] /\ v_upds v' = [] /\ v_nodatas v' = [] /\ v_types v' = [] /\ v_reclss v' = [] /\ v_tables v' = [].
Proof.
  unfold align. cbn [set_fmts v_ins]. intros -> E. injection E as <-. unfold same_globals, settled_out. cbn. auto 30.
Qed.

Lemma align_one (v v' : vars V) ps : v_ins v = [ps] -> align o v = Ok (Go v') ->
  same_globals v v' /\ v_infmt v' = v_infmt v /\ v_outfmt v' = settled_out v /\ v_in_fmts v' = v_in_fmts v /\ v_ins v' = [ps] /\
  v_out_fmts v' = settled_out v :: tl (v_out_fmts v) /\
  v_outs v' = match v_outs v with [] => [default_out o (hd [] ps) (match ps with [_] => false | _ => true end)] | l => l end /\
  v_defaults v' = or_one (v_defaults v) (v_default v) /\ v_upds v' = or_one (v_upds v) (v_upd v) /\ v_nodatas v' = or_one (v_nodatas v) (v_nodata v) /\
  v_types v' = or_one (v_types v) (v_type v) /\ v_reclss v' = or_one (v_reclss v) (v_recls v) /\ v_tables v' = or_one (v_tables v) [].
Proof.
  unfold align. cbn [set_fmts v_ins v_outs]. intros -> E.
  destruct (v_outs v) as [|q qs] eqn:Q.
  - destruct ps as [|p rest]; [discriminate|]. cbn [obind] in E. injection E as <-. unfold same_globals, settled_out. cbn. repeat split; destruct rest, (v_out_fmts v); reflexivity.
  - cbn [obind] in E. injection E as <-. unfold same_globals, settled_out. cbn. repeat split; destruct (v_out_fmts v); reflexivity.
Qed.

Lemma align_cases (v v' : vars V) : align o v = Ok (Go v') -> v_ins v = [] \/ exists ps, v_ins v = [ps].
Proof. unfold align. cbn [set_fmts v_ins]. destruct (v_ins v) as [|ps [|]]; intros E; [auto|eauto|discriminate]. Qed.

Notation options_say := (options_say strtod nd o ex).
Notation given_type := type_of.

Lemma outs_paths l : map snd (flat_map (outs_of ex) l) =
  flat_map (fun vals => match parse_fmt_paths ex (str "OUT") vals with Ok (Some (_, p :: _)) => [p] | _ => [] end) l.
Proof.
  induction l as [|a l IH]; [reflexivity|]. cbn [flat_map]. rewrite map_app, IH. f_equal. unfold outs_of, parsed.
  destruct (parse_fmt_paths ex (str "OUT") a) as [[[f [|p ps]]|]| |]; reflexivity.
Qed.

Lemma holds_app (v v' : vars V) first js : holds v first -> appended v v' js -> holds v' (first ++ js).
Proof.
  intros (A1 & A2 & A3 & A4 & A5 & A6 & A7 & A8 & A9 & A10) (B1 & B2 & B3 & B4 & B5 & B6 & B7 & B8 & B9 & B10).
  unfold holds. rewrite !map_app, <- A1, <- A2, <- A3, <- A4, <- A5, <- A6, <- A7, <- A8, <- A9, <- A10. auto 20.
Qed.

(** The state before the items. *)
Lemma prepare_first keys its v : NoDup (map fst keys) ->
  prepare strtod nd o ex conn keys its = Ok (Go v) ->
  lookup keys (str "OUT") = None \/ lookup keys (str "OUTPUT") = None ->
  exists v0 v1 first, options strtod nd ex conn (vars0 nd) (by_key keys) = Ok (Go v0) /\ same_globals v0 v1 /\
    v_infmt v1 = v_infmt v0 /\ v_outfmt v1 = settled_out v0 /\
    items strtod nd ex v1 its = Ok v /\ holds v1 first /\ v_type v1 = given_type keys /\
    match first with
    | [] => flat_map (ins_of ex) (both keys "IN" "INPUT") = []
    | [j] => options_say keys j /\ j_outfmt j = settled_out v0
    | _ => False
    end.
Proof.
  intros HN E HO. unfold prepare in E.
  destruct (options strtod nd ex conn (vars0 nd) (by_key keys)) as [[c|v0]| |] eqn:E0; try discriminate. cbn [obind] in E.
  destruct (align o v0) as [[c|v1]| |] eqn:E1; try discriminate. cbn [obind] in E.
  destruct (items strtod nd ex v1 its) as [v2| |] eqn:E2; try discriminate. cbn [obind] in E. injection E as <-.
  exists v0, v1. pose proof E0 as E0'.
  apply (vars_of_keys strtod nd ex conn keys HN) in E0.
  destruct E0 as (A1 & A2 & A3 & A4 & A5 & A6 & A7 & A8 & A9 & A10 & A11 & A12 & (A13 & A14 & A15 & A16 & A17) & A18 & A19 & A20).
  assert (LO : (length (flat_map (outs_of ex) (both keys "OUT" "OUTPUT")) <= 1)%nat).
  { unfold both. assert (L1 : forall a, (length (outs_of ex a) <= 1)%nat) by (intros a; unfold outs_of; destruct (parsed ex "OUT" a) as [[f [|]]|]; cbn; lia).
    destruct HO as [-> | ->]; cbn [opt_list app].
    - destruct (lookup keys (str "OUTPUT")) as [l|]; cbn; rewrite ?app_nil_r; auto.
    - destruct (lookup keys (str "OUT")) as [l|]; cbn; rewrite ?app_nil_r; auto. }
  destruct (align_cases _ _ E1) as [Z|(ps & Z)].
  - pose proof (align_none _ _ Z E1) as B. destruct B as (B1 & BI & BO & B2 & B3 & B4 & B5 & B6 & B7 & B8 & B9 & B10 & B11).
    assert (NI : flat_map (ins_of ex) (both keys "IN" "INPUT") = []).
    { rewrite Z in A6. destruct (flat_map (ins_of ex) (both keys "IN" "INPUT")); [reflexivity|discriminate]. }
    exists []. split; [reflexivity|]. split; [exact B1|]. split; [exact BI|]. split; [exact BO|]. split; [exact E2|]. split.
    { rewrite NI in A5. cbn [map] in A5. unfold holds. rewrite B2, A5, B3, B4, B5, B6, B7, B8, B9, B10, B11. cbn [map]. auto 20. }
    split; [|exact NI]. unfold type_of. rewrite <- A18. unfold same_globals in B1. tauto.
  - pose proof (align_one _ _ _ Z E1) as B. destruct B as (B1 & BI & BO & B2 & B3 & B4 & B5 & B6 & B7 & B8 & B9 & B10 & B11).
    destruct (flat_map (ins_of ex) (both keys "IN" "INPUT")) as [|[f ps'] [|]] eqn:NI; rewrite Z in A6; try discriminate.
    cbn [map snd fst] in A5, A6. injection A6 as <-.
    rewrite A13, A14, A15, A16, A17, A20 in *. cbn [or_one] in *. rewrite A5 in B2.
    assert (INC : exists vals, (lookup keys (str "IN") = Some vals \/ lookup keys (str "INPUT") = Some vals) /\
       parse_fmt_paths ex (str "IN") vals = Ok (Some (f, ps)) /\ ps <> []).
    { assert (I : In (f, ps) (flat_map (ins_of ex) (both keys "IN" "INPUT"))) by (rewrite NI; left; reflexivity).
      apply in_flat_map in I. destruct I as (vals & I1 & I2). exists vals. split.
      - unfold both in I1. apply in_app_iff in I1. destruct (lookup keys (str "IN")), (lookup keys (str "INPUT")); cbn in I1; intuition congruence.
      - unfold ins_of, parsed in I2. destruct (parse_fmt_paths ex (str "IN") vals) as [[[f1 [|p1 ps1]]|]| |]; cbn in I2; try contradiction.
        destruct I2 as [I2|[]]. injection I2 as -> <-. split; [reflexivity|discriminate]. }
    rewrite outs_paths in A9.
    assert (OUT1 : exists p, v_outs v1 = [p] /\ p = match flat_map (fun vals => match parse_fmt_paths ex (str "OUT") vals with Ok (Some (_, p :: _)) => [p] | _ => [] end) (both keys "OUT" "OUTPUT") with
            | p :: _ => p
            | [] => default_out o (hd [] ps) (match ps with [_] => false | _ => true end)
            end).
    { assert (LO' : (length (v_outs v0) <= 1)%nat) by (rewrite A9, <- outs_paths, map_length; exact LO).
      rewrite B5. clear - LO' A9. rewrite A9 in *. destruct (flat_map _ (both keys "OUT" "OUTPUT")) as [|p [|p2 l]]; [eauto|eauto|cbn [length] in LO'; lia]. }
    destruct OUT1 as (p & B5' & OP).
    assert (OF1 : v_out_fmts v1 = [settled_out v0]).
    { rewrite B4. f_equal. assert (length (v_out_fmts v0) <= 1)%nat by (rewrite A8, map_length; exact LO). destruct (v_out_fmts v0) as [|? [|]]; cbn in *; [reflexivity|reflexivity|lia]. }
    destruct (match lookup keys (str "RECLASS") with Some l => parse_key_values strtod (hd [] l) | None => ([], false) end) as [tab rc] eqn:RC.
    assert (RC1 : v_reclss v1 = [rc] /\ v_tables v1 = [tab]).
    { rewrite B10, B11, A19. destruct (lookup keys (str "RECLASS")); [rewrite RC; split; reflexivity|]. injection RC as <- <-. split; reflexivity. }
    destruct RC1 as [RC1 RC2].
    exists [mkJob f ps (settled_out v0) p (v_default v0) (v_upd v0) (v_nodata v0) (v_type v0) rc tab].
    split; [reflexivity|]. split; [exact B1|]. split; [exact BI|]. split; [exact BO|]. split; [exact E2|]. split.
    { unfold holds. rewrite B2, B3, OF1, B5', B6, B7, B8, B9, RC1, RC2. cbn [map app j_infmt j_ins j_outfmt j_out j_default j_upd j_nodata j_type j_recls j_table]. auto 20. }
    split. { unfold type_of. rewrite <- A18. unfold same_globals in B1. tauto. }
    split; [|reflexivity].
    unfold options_say. cbn [j_infmt j_ins j_outfmt j_out j_default j_upd j_nodata j_type j_recls j_table].
    split; [exact INC|]. split; [exact OP|]. split; [exact A10|]. split; [exact A11|]. split; [exact A12|]. split; [exact A18|].
    exact (eq_sym RC).
Qed.

Lemma prepare_jobs keys its v : NoDup (map fst keys) ->
  prepare strtod nd o ex conn keys its = Ok (Go v) ->
  lookup keys (str "OUT") = None \/ lookup keys (str "OUTPUT") = None ->
  exists first kept js, sublist kept its /\ Forall2 (says strtod nd (given_type keys)) kept js /\ holds v (first ++ js) /\
    match first with
    | [] => flat_map (ins_of ex) (both keys "IN" "INPUT") = []
    | [j] => options_say keys j
    | _ => False
    end.
Proof.
  intros HN E HO. destruct (prepare_first keys its v HN E HO) as (v0 & v1 & first & _ & _ & _ & _ & E2 & H & TY & M).
  apply items_jobs in E2. destruct E2 as (G & kept & js & K1 & _ & K3 & K4). rewrite TY in K3.
  exists first, kept, js. split; [exact K1|]. split; [exact K3|]. split; [eapply holds_app; eassumption|].
  destruct first as [|j [|]]; tauto.
Qed.

(** With both names of the output option, the outputs of the items move by one. *)
Lemma prepare_shift keys its v f1 p1 t1 f2 p2 t2 v1 v2 : NoDup (map fst keys) ->
  prepare strtod nd o ex conn keys its = Ok (Go v) ->
  lookup keys (str "OUT") = Some v1 -> parse_fmt_paths ex (str "OUT") v1 = Ok (Some (f1, p1 :: t1)) ->
  lookup keys (str "OUTPUT") = Some v2 -> parse_fmt_paths ex (str "OUT") v2 = Ok (Some (f2, p2 :: t2)) ->
  flat_map (ins_of ex) (both keys "IN" "INPUT") <> [] ->
  exists ps kept, sublist kept its /\ v_ins v = ps :: map item_ins kept /\ v_outs v = p1 :: p2 :: map item_out kept.
Proof.
  intros HN E L1 P1 L2 P2 NE. unfold prepare in E.
  destruct (options strtod nd ex conn (vars0 nd) (by_key keys)) as [[c|v0]| |] eqn:E0; try discriminate. cbn [obind] in E.
  destruct (align o v0) as [[c|va]| |] eqn:E1; try discriminate. cbn [obind] in E.
  destruct (items strtod nd ex va its) as [vb| |] eqn:E2; try discriminate. cbn [obind] in E. injection E as <-.
  apply (vars_of_keys strtod nd ex conn keys HN) in E0.
  destruct E0 as (_ & _ & _ & _ & _ & A6 & _ & _ & A9 & _).
  apply items_jobs in E2. destruct E2 as (_ & kept & js & K1 & _ & K3 & K4).
  assert (MI : map j_ins js = map item_ins kept /\ map j_out js = map item_out kept).
  { clear - K3. induction K3 as [|it j l l' S _ [IH1 IH2]]; [auto|]. cbn. destruct S as (S1 & S2 & _). rewrite S1, S2, IH1, IH2. auto. }
  destruct MI as [M1 M2].
  destruct (align_cases _ _ E1) as [Z|(ps & Z)].
  - rewrite Z in A6. destruct (flat_map (ins_of ex) (both keys "IN" "INPUT")); [congruence|discriminate].
  - pose proof (align_one _ _ _ Z E1) as B. destruct B as (_ & _ & _ & _ & B3 & _ & B5 & _).
    unfold both in A9. rewrite L1, L2 in A9. cbn [opt_list app flat_map] in A9. unfold outs_of, parsed in A9. rewrite P1, P2 in A9. cbn [map app snd] in A9.
    rewrite A9 in B5. exists ps, kept. split; [exact K1|]. destruct K4 as (_ & K4a & _ & K4b & _). rewrite B3, M1 in K4a. rewrite B5, M2 in K4b. auto.
Qed.
End Prep.
