(** Proofs about the raster tool: the calls made for data sets in files. *)
From Coq Require Import ZArith Ascii String List Bool Lia.
From Verif Require Import Base StrModel StrSpec StrProofs MapModel MapProofs FsModel BasicModel SubsetModel AppModel AppSpec AppProofs ToolModel ToolSpec ToolProofs ToolProofs2 ToolProofs3 ToolProofs4 ToolProofs5 ToolProofs6.
Import ListNotations.
Open Scope Z_scope.
Open Scope outcome_scope.

Lemma at_map {A B} (f : A -> B) l i a : nth_error l i = Some a -> at_ (map f l) i = Ok (f a).
Proof. intros E. unfold at_. rewrite nth_error_map, E. reflexivity. Qed.

Section Run.
Context {V : Type}.
Variable strtod : bytes -> V * nat.
Variable nd : V.
Variable o : os.
Variable ex : bytes -> bool.
Variable conn : list bytes -> option bool.
Variable mask_ok : datafmt -> bytes -> bool.
Variable files_ok : list bytes -> bool -> V -> outcome bool.
Variable gfs_ok : bytes -> bool -> V -> outcome bool.
Variable mask_ids : list Z.
Variable sub_ok : bytes -> outcome bool.

Notation process := (process nd ex files_ok gfs_ok).
Notation run_sets := (run_sets nd o ex files_ok gfs_ok mask_ids sub_ok).
Notation run := (run nd o ex mask_ok files_ok gfs_ok mask_ids sub_ok).
Notation tool := (tool strtod nd o ex conn mask_ok files_ok gfs_ok mask_ids sub_ok).

Lemma process_file (v : vars V) masked js i j : holds v js -> nth_error js i = Some j ->
  j_infmt j = SFILE -> j_outfmt j = SFILE -> FilesExist ex (j_ins j) = true -> files_ok (j_ins j) masked (j_default j) = Ok true ->
  v_mode v <> COM ->
  process v masked i (j_ins j) (out_type (j_type j)) = Ok (file_calls (v_mode v) masked j).
Proof.
  intros (A1 & A2 & A3 & A4 & A5 & A6 & A7 & A8 & A9 & A10) N F1 F2 F3 F4 M. unfold ToolModel.process.
  rewrite A1, A3, A4, A5, A6, A7, A9, A10, !(at_map _ _ _ _ N). cbn [obind]. rewrite F1, F2, F3, F4. cbn [fmt_is andb obind].
  unfold file_calls, outputs, out_type. cbn [fmt_is]. destruct (j_type j), (j_upd j); cbn [obind]; destruct (v_mode v), (j_recls j); try congruence; reflexivity.
Qed.

Lemma process_skip (v : vars V) masked js i j t : holds v js -> nth_error js i = Some j ->
  j_infmt j <> GFS \/ v_mongo v = false -> FilesExist ex (j_ins j) = false -> process v masked i (j_ins j) t = Ok [].
Proof.
  intros (A1 & _) N F1 F3. unfold ToolModel.process. rewrite A1, (at_map _ _ _ _ N). cbn [obind]. rewrite F3, andb_false_r.
  destruct F1 as [F1 | ->]; [|rewrite andb_false_r; reflexivity]. destruct (j_infmt j); [reflexivity|congruence|reflexivity].
Qed.

Lemma process_gfs_off (v : vars V) masked js i j t : holds v js -> nth_error js i = Some j ->
  j_infmt j = GFS -> v_mongo v = false -> process v masked i (j_ins j) t = Ok [].
Proof.
  intros (A1 & _) N F1 F3. unfold ToolModel.process. rewrite A1, (at_map _ _ _ _ N). cbn [obind]. rewrite F1, F3. reflexivity.
Qed.

(** A data set the run can handle: read from and written to files, or left out. *)
Definition fits (mongo masked : bool) (j : job V) : Prop :=
  if FilesExist ex (j_ins j) then j_infmt j = SFILE /\ j_outfmt j = SFILE /\ files_ok (j_ins j) masked (j_default j) = Ok true
  else j_infmt j <> GFS \/ mongo = false.

Lemma run_sets_files (v : vars V) masked js : (v_mode v = MASK \/ v_mode v = DEC \/ v_mode v = MASKDEC) ->
  forall pre, holds v (pre ++ js) -> Forall (fits (v_mongo v) masked) js ->
  run_sets v masked (length pre) (map j_ins js) = Ok (flat_map (file_calls (v_mode v) masked) (filter (fun j => FilesExist ex (j_ins j)) js), None).
Proof.
  intros M. induction js as [|j js IH]; intros pre H F; [reflexivity|]. cbn [map ToolModel.run_sets].
  assert (N : nth_error (pre ++ j :: js) (length pre) = Some j) by (rewrite nth_error_app2, Nat.sub_diag by lia; reflexivity).
  pose proof H as (_ & _ & _ & _ & _ & _ & _ & A8 & _). rewrite A8, (at_map _ _ _ _ N). cbn [obind].
  inversion F as [|? ? F1 F2]; subst.
  specialize (IH (pre ++ [j])). rewrite <- app_assoc in IH. cbn [app] in IH. specialize (IH H F2).
  rewrite app_length in IH. cbn [length] in IH. rewrite Nat.add_1_r in IH. rewrite IH.
  assert (P : process v masked (length pre) (j_ins j) (out_type (j_type j)) = Ok (if FilesExist ex (j_ins j) then file_calls (v_mode v) masked j else [])).
  { unfold fits in F1. destruct (FilesExist ex (j_ins j)) eqn:FE.
    - destruct F1 as (X1 & X2 & X3). eapply process_file; eauto. destruct M as [-> | [-> | ->]]; discriminate.
    - eapply process_skip; eauto. }
  rewrite P. cbn [obind fst snd filter].
  destruct M as [-> | [-> | ->]]; destruct (FilesExist ex (j_ins j)); reflexivity.
Qed.

Notation masked_by := (ToolSpec.masked_by ex).

Lemma threads_opts l : forall v v', options strtod nd ex conn v l = Ok (Go v') ->
  v_threads v' = fold_left (fun x kv => if key_is (fst kv) ["THREAD"%string] then (let (n, ok) := IsInt (hd [] (snd kv)) in if ok then n else 1) else x) l (v_threads v).
Proof.
  induction l as [|[k vals] l IH]; intros v v' E; [injection E as <-; reflexivity|].
  cbn [options] in E. destruct (option_step strtod nd ex conn v (k, vals)) as [[c|v1]| |] eqn:S; try discriminate. cbn [obind] in E.
  apply step_vars in S. destruct S as (_ & S & _). rewrite (IH _ _ E), S. reflexivity.
Qed.
Lemma threads_keys keys v : NoDup (map fst keys) -> options strtod nd ex conn (vars0 nd) (by_key keys) = Ok (Go v) -> v_threads v = threads_of keys.
Proof.
  intros HN E. rewrite (threads_opts _ _ _ E).
  rewrite (fold_one keys HN "THREAD" (fun (_ : Z) l => let (n, ok) := IsInt (hd [] l) in if ok then n else 1)). unfold threads_of. cbn [vars0 v_threads].
  destruct (lookup keys (str "THREAD")); reflexivity.
Qed.

(** The end of main, from the mask on. *)
Lemma run_shape (v : vars V) keys js : mask_of ex keys = None \/ (exists p, mask_of ex keys = Some p /\ mask_ok SFILE p = true) ->
  (v_mask_fmt v, v_mask v) = match lookup keys (str "MASK") with
                             | Some l => match parsed ex "MASK" l with Some (f, p :: _) => (f, p) | _ => (UNKNOWNFMT, []) end
                             | None => (UNKNOWNFMT, []) end ->
  v_mongo v = false -> (v_mode v = MASK \/ v_mode v = DEC \/ v_mode v = MASKDEC) ->
  holds v js -> Forall (fits false (masked_by keys)) js ->
  run v = Ok (open_calls (v_threads v) (v_mode v) (mask_of ex keys) ++
              flat_map (file_calls (v_mode v) (masked_by keys)) (filter (fun j => FilesExist ex (j_ins j)) js) ++ close_calls (mask_of ex keys), 0).
Proof.
  intros MK MV NM MO H F. unfold ToolModel.run.
  assert (L : load_mask ex mask_ok v = Go (masked_by keys, match mask_of ex keys with Some p => [InitMask SFILE p] | None => [] end)).
  { unfold load_mask, masked_by, mask_of in *. unfold parsed in MV.
    destruct (lookup keys (str "MASK")) as [l|]; [|injection MV as -> ->; reflexivity].
    destruct (parse_fmt_paths ex (str "MASK") l) as [[[f [|p ps]]|]| |]; try (injection MV as -> ->; reflexivity); [injection MV as -> ->; destruct f; reflexivity|].
    injection MV as -> ->. rewrite NM. destruct f, p as [|c p]; cbn [fmt_is andb]; try reflexivity.
    destruct (ex (c :: p)) eqn:XE; cbn [is_some]; [|reflexivity].
    destruct MK as [MK|(p' & MK & OKM)]; [discriminate|]. injection MK as <-. rewrite OKM. reflexivity. }
  rewrite L. cbv iota beta.
  pose proof (run_sets_files v (masked_by keys) js MO [] H) as R. rewrite NM in R. specialize (R F). cbn [length] in R.
  pose proof H as (_ & A2 & _). rewrite A2, R. cbn [obind fst snd]. rewrite NM. unfold open_calls, close_calls, masked_by.
  destruct (mask_of ex keys); cbn [is_some]; destruct MO as [-> | [-> | ->]]; cbn [app]; rewrite ?app_nil_r; reflexivity.
Qed.

(** From options and items to data sets, with files only. *)
Notation in_ready := (ToolSpec.in_ready ex files_ok).
Notation first_says := (ToolSpec.first_says strtod nd o ex).

Lemma prepare_files_any keys its : NoDup (map fst keys) -> Forall (accepted ex) keys -> Forall (fun it => it <> []) its ->
  lookup keys (str "MONGO") = None -> lookup keys (str "MONGODB") = None ->
  lookup keys (str "INPUT") = None -> lookup keys (str "OUTPUT") = None -> match lookup keys (str "IN") with
  | Some l => exists ps, parse_fmt_paths ex (str "IN") l = Ok (Some (SFILE, ps)) /\ FilesExist ex ps = true
  | None => True
  end ->
  exists v first js, prepare strtod nd o ex conn keys its = Ok (Go v) /\ first_says keys first /\
    Forall2 (fun it j => says strtod nd (type_of keys) it j /\ (FilesExist ex (item_ins it) = true -> j_infmt j = SFILE) /\ j_infmt j <> GFS /\ j_outfmt j = SFILE)
      (filter (fun it => negb (blank it) && (FilesExist ex (item_ins it) || has_table strtod it)) its) js /\
    holds v (first ++ js) /\ v_mongo v = false /\ v_mode v = mode_of keys /\ v_threads v = threads_of keys /\
    (v_mask_fmt v, v_mask v) = match lookup keys (str "MASK") with
                             | Some l => match parsed ex "MASK" l with Some (f, p :: _) => (f, p) | _ => (UNKNOWNFMT, []) end
                             | None => (UNKNOWNFMT, []) end.
Proof.
  intros HN HA HI M1 M2 NI NO IN.
  destruct (keys_accept strtod nd ex conn keys HA) as [v0 E0].
  pose proof (vars_of_keys strtod nd ex conn keys HN v0 E0) as W.
  destruct W as (W1 & W2 & W3 & W4 & W5 & W6 & W7 & _).
  unfold both in W2, W4, W5, W6, W7. rewrite M1, M2 in W2. rewrite NI in W4, W5, W6. rewrite NO in W7. cbn [app fold_left flat_map] in *. rewrite !app_nil_r in *.
  assert (IF : v_infmt v0 = match lookup keys (str "IN") with Some _ => SFILE | None => UNKNOWNFMT end).
  { rewrite W4. destruct (lookup keys (str "IN")) as [l|]; [|reflexivity]. destruct IN as (ps & P & _). cbn [fold_left]. unfold fmt_of, parsed. rewrite P. reflexivity. }
  assert (AL : exists v1, align o v0 = Ok (Go v1)).
  { unfold align. cbn [set_fmts v_ins v_outs]. rewrite W6. destruct (lookup keys (str "IN")) as [l|]; [|eexists; reflexivity].
    destruct IN as (ps & P & FE). cbn [flat_map]. unfold ins_of, parsed. rewrite P. destruct ps as [|p ps]; [discriminate|].
    cbn [app map snd]. destruct (v_outs v0); cbn [obind]; eexists; reflexivity. }
  destruct AL as [v1' E1]. destruct (items_ok strtod nd ex its HI v1') as [v E2].
  assert (EP : prepare strtod nd o ex conn keys its = Ok (Go v)) by (unfold prepare; rewrite E0; cbn [obind]; rewrite E1; cbn [obind]; rewrite E2; reflexivity).
  destruct (prepare_first strtod nd o ex conn keys its v HN EP (or_intror NO)) as (v0' & v1 & first & E0' & SG & I1 & O1 & EI & HF & TY & MF).
  rewrite E0 in E0'. injection E0' as <-.
  assert (G : v_mongo v1 = false /\ v_mode v1 = v_mode v0) by (unfold same_globals in SG; intuition congruence). destruct G as [G1 G2].
  assert (IF1 : v_infmt v1 = SFILE \/ v_infmt v1 = UNKNOWNFMT /\ v_mongo v1 = false).
  { rewrite I1, IF. destruct (lookup keys (str "IN")); auto. }
  assert (SO : settled_out v0 = SFILE \/ settled_out v0 = UNKNOWNFMT).
  { unfold settled_out. rewrite W2, IF. destruct (v_outfmt v0), (lookup keys (str "IN")); cbn; auto. }
  assert (SO1 : lookup keys (str "IN") <> None -> settled_out v0 = SFILE).
  { unfold settled_out. rewrite W2, IF. destruct (v_outfmt v0), (lookup keys (str "IN")); cbn; congruence. }
  destruct (items_file strtod nd ex its v1 v EI IF1) as (js & AP & F2). rewrite TY in F2.
  assert (OO : out_of v1 = SFILE).
  { unfold out_of. rewrite G1, O1. destruct SO as [-> | ->]; reflexivity. }
  rewrite OO in F2.
  pose proof (holds_app v1 v first js HF AP) as H.
  assert (FIRST : first_says keys first).
  { unfold first_says. destruct (lookup keys (str "IN")) as [l|] eqn:LI.
    - destruct IN as (ps & P & FE).
      destruct first as [|j [|]]; [|destruct MF as [MF1 MF2]|contradiction].
      { unfold both in MF. rewrite LI, NI in MF. cbn [app flat_map] in MF. rewrite app_nil_r in MF. unfold ins_of, parsed in MF. rewrite P in MF. destruct ps; discriminate. }
      pose proof MF1 as ((vals & [X|X] & P' & _) & _); [|congruence]. rewrite LI in X. injection X as <-. rewrite P in P'. injection P' as JF JI. rewrite <- JI.
      split; [exact MF1|]. split; [exact FE|]. split; [symmetry; exact JF|]. rewrite MF2. apply SO1. congruence.
    - destruct first as [|j [|]]; [exact Logic.I|destruct MF as [MF1 MF2]|contradiction].
      destruct MF1 as ((vals & [X|X] & _) & _); congruence. }
  pose proof (items_jobs strtod nd ex its v1 v EI) as (GI & _).
  pose proof (same_trans _ _ _ SG GI) as GG.
  assert (GV : v_mode v = v_mode v0 /\ v_threads v = v_threads v0 /\ v_mongo v = v_mongo v0 /\ v_mask_fmt v = v_mask_fmt v0 /\ v_mask v = v_mask v0) by (unfold same_globals in GG; tauto).
  destruct GV as (V1 & V2 & V3 & V4 & V5).
  exists v, first, js. split; [exact EP|]. split; [exact FIRST|]. split; [exact F2|]. split; [exact H|]. split; [congruence|].
  split; [rewrite V1, W1; reflexivity|]. split; [rewrite V2; apply threads_keys; assumption|]. congruence.
Qed.

Lemma mode_known keys : Forall (accepted ex) keys -> mode_of keys <> UNKNOWNMODE.
Proof.
  intros HA MM. unfold mode_of in MM. destruct (lookup keys (str "MODE")) as [l|] eqn:LM; [|discriminate].
  apply lookup_In in LM. rewrite Forall_forall in HA. destruct (HA _ LM) as (_ & HA1 & _). exact (HA1 eq_refl MM).
Qed.

(** The data sets whose files exist. *)
Lemma says_filter ty its : forall js, Forall2 (fun it j => says strtod nd ty it j /\ (FilesExist ex (item_ins it) = true -> j_infmt j = SFILE) /\ j_infmt j <> GFS /\ j_outfmt j = SFILE)
      (filter (fun it => negb (blank it) && (FilesExist ex (item_ins it) || has_table strtod it)) its) js ->
  Forall2 (says strtod nd ty) (filter (fun it => negb (blank it) && FilesExist ex (item_ins it)) its) (filter (fun j => FilesExist ex (j_ins j)) js).
Proof.
  induction its as [|it its IH]; intros js F2; cbn [filter] in *; [inversion F2; constructor|].
  destruct (blank it); cbn [negb andb] in *; [auto|].
  destruct (FilesExist ex (item_ins it)) eqn:FE; cbn [orb] in *.
  - inversion F2 as [|? j ? js' (S & _) F2']; subst. cbn [filter]. pose proof S as (S1 & _). rewrite S1, FE. constructor; auto.
  - destruct (has_table strtod it); [|auto]. inversion F2 as [|? j ? js' (S & _) F2']; subst. cbn [filter]. pose proof S as (S1 & _). rewrite S1, FE. auto.
Qed.

Lemma tool_files keys its : NoDup (map fst keys) -> Forall (accepted ex) keys -> Forall (fun it => it <> []) its ->
  lookup keys (str "MONGO") = None -> lookup keys (str "MONGODB") = None ->
  lookup keys (str "INPUT") = None -> lookup keys (str "OUTPUT") = None -> in_ready (masked_by keys) keys ->
  mode_of keys <> COM ->
  mask_of ex keys = None \/ (exists p, mask_of ex keys = Some p /\ mask_ok SFILE p = true) ->
  Forall (fun it => FilesExist ex (item_ins it) = true -> forall dv, files_ok (item_ins it) (masked_by keys) dv = Ok true) its ->
  exists first js, first_says keys first /\
    Forall2 (says strtod nd (type_of keys)) (filter (fun it => negb (blank it) && FilesExist ex (item_ins it)) its) js /\
    tool keys its = Ok (open_calls (threads_of keys) (mode_of keys) (mask_of ex keys) ++
       flat_map (file_calls (mode_of keys) (masked_by keys)) (first ++ js) ++ close_calls (mask_of ex keys), 0).
Proof.
  intros HN HA HI M1 M2 NI NO IN MC MK RD.
  assert (IN' : match lookup keys (str "IN") with
  | Some l => exists ps, parse_fmt_paths ex (str "IN") l = Ok (Some (SFILE, ps)) /\ FilesExist ex ps = true
  | None => True
  end) by (unfold in_ready in IN; destruct (lookup keys (str "IN")); [destruct IN as (ps & P & FE & _); eauto|exact Logic.I]).
  destruct (prepare_files_any keys its HN HA HI M1 M2 NI NO IN') as (v & first & js & EP & FS & F2 & H & V1 & V2 & V3 & V4).
  assert (FF : Forall (fits false (masked_by keys)) first /\ filter (fun j => FilesExist ex (j_ins j)) first = first).
  { unfold first_says, in_ready in *. destruct (lookup keys (str "IN")) as [l|] eqn:LI; destruct first as [|j [|]]; try contradiction.
    - destruct IN as (ps & P & FE & RDY). destruct FS as (FS1 & FS2 & FS3 & FS4).
      pose proof FS1 as ((vals & [X|X] & P' & _) & _); [|congruence]. rewrite LI in X. injection X as <-. rewrite P in P'. injection P' as JF JI.
      cbn [filter]. rewrite FS2. split; [|reflexivity]. constructor; [|constructor]. unfold fits. rewrite FS2, <- JI. auto.
    - split; constructor. }
  destruct FF as [FF FX].
  assert (FJ : Forall (fits false (masked_by keys)) js).
  { assert (RD' : forall it, In it its -> FilesExist ex (item_ins it) = true -> forall dv, files_ok (item_ins it) (masked_by keys) dv = Ok true) by (rewrite Forall_forall in RD; exact RD).
    assert (SUB : forall it, In it (filter (fun it => negb (blank it) && (FilesExist ex (item_ins it) || has_table strtod it)) its) -> In it its) by (intros it I; apply filter_In in I; tauto).
    clear - F2 RD' SUB. induction F2 as [|it j l l' (S & X1 & X2 & X3) _ IH]; [constructor|]. constructor.
    - destruct S as (S1 & _). unfold fits. rewrite S1. destruct (FilesExist ex (item_ins it)) eqn:FE; [|left; exact X2].
      split; [auto|]. split; [exact X3|]. apply RD'; [apply SUB; left; reflexivity|exact FE].
    - apply IH. intros it' I. apply SUB. right. exact I. }
  exists first, (filter (fun j => FilesExist ex (j_ins j)) js). split; [exact FS|]. split; [apply says_filter; exact F2|].
  unfold ToolModel.tool. rewrite EP. cbn [obind].
  assert (MO : v_mode v = MASK \/ v_mode v = DEC \/ v_mode v = MASKDEC).
  { rewrite V2. pose proof (mode_known keys HA). destruct (mode_of keys); [auto|exfalso; apply MC; reflexivity|auto|auto|congruence]. }
  rewrite (run_shape v keys (first ++ js) MK V4 V1 MO H); [|apply Forall_app; auto].
  rewrite filter_app, FX, V2, V3. reflexivity.
Qed.

(** ** Combining *)
Lemma fills_files (v : vars V) ps : (forall p, In p ps -> ex p = true /\ exists b, sub_ok p = Ok b) ->
  fills o ex mask_ids sub_ok v SFILE ps = Ok (flat_map (fill_calls o mask_ids (fun p => match sub_ok p with Ok b => b | _ => false end)) ps).
Proof.
  induction ps as [|p ps IH]; intros H; [reflexivity|]. cbn [fills flat_map].
  rewrite IH by (intros q I; apply H; right; exact I).
  assert (F : fill o ex mask_ids sub_ok v SFILE p = Ok (fill_calls o mask_ids (fun p => match sub_ok p with Ok b => b | _ => false end) p)).
  { unfold fill, fill_calls, id_of. destruct (SplitString_d (GetCoreFileName o p) "_") as [|s t]; [reflexivity|].
    destruct (IsInt s) as [id ok]. destruct ok; cbn [negb]; [|reflexivity].
    destruct (existsb (Z.eqb id) mask_ids); cbn [negb andb]; [|reflexivity].
    destruct (H p (or_introl eq_refl)) as [-> (b & ->)]. cbn [fmt_is andb obind]. destruct b; reflexivity. }
  rewrite F. reflexivity.
Qed.

Lemma run_sets_com (v : vars V) js : v_mode v = COM ->
  forall pre, holds v (pre ++ js) ->
  Forall (fun j => j_infmt j = SFILE /\ j_outfmt j = SFILE /\ forall p, In p (j_ins j) -> ex p = true /\ exists b, sub_ok p = Ok b) js ->
  run_sets v true (length pre) (map j_ins js) = Ok (flat_map (com_calls o mask_ids (fun p => match sub_ok p with Ok b => b | _ => false end)) js, None).
Proof.
  intros M. induction js as [|j js IH]; intros pre H F; [reflexivity|]. cbn [map ToolModel.run_sets].
  assert (N : nth_error (pre ++ j :: js) (length pre) = Some j) by (rewrite nth_error_app2, Nat.sub_diag by lia; reflexivity).
  pose proof H as (A1 & _ & A3 & A4 & A5 & _ & _ & A8 & _). rewrite A8, (at_map _ _ _ _ N). cbn [obind].
  inversion F as [|? ? (F1 & F2 & F3) F4]; subst.
  specialize (IH (pre ++ [j])). rewrite <- app_assoc in IH. cbn [app] in IH. specialize (IH H F4).
  rewrite app_length in IH. cbn [length] in IH. rewrite Nat.add_1_r in IH. rewrite IH, M. unfold combine_set. cbn [negb].
  rewrite A1, A3, A4, A5, !(at_map _ _ _ _ N). cbn [obind]. rewrite F1, F2, (fills_files v _ F3). cbn [obind fmt_is flat_map fst snd].
  unfold com_calls, out_type. destruct (j_type j); cbn [app]; rewrite <- !app_assoc; reflexivity.
Qed.

Lemma tool_com keys its p : NoDup (map fst keys) -> Forall (accepted ex) keys -> Forall (fun it => it <> []) its ->
  lookup keys (str "MONGO") = None -> lookup keys (str "MONGODB") = None ->
  lookup keys (str "INPUT") = None -> lookup keys (str "OUTPUT") = None ->
  match lookup keys (str "IN") with
  | Some l => exists ps, parse_fmt_paths ex (str "IN") l = Ok (Some (SFILE, ps)) /\ FilesExist ex ps = true
  | None => True
  end ->
  mode_of keys = COM -> mask_of ex keys = Some p -> mask_ok SFILE p = true ->
  Forall (fun it => has_table strtod it = false) its -> (forall p, exists b, sub_ok p = Ok b) ->
  exists first js, first_says keys first /\
    Forall2 (says strtod nd (type_of keys)) (filter (fun it => negb (blank it) && FilesExist ex (item_ins it)) its) js /\
    tool keys its = Ok (open_calls (threads_of keys) COM (Some p) ++
       flat_map (com_calls o mask_ids (fun p => match sub_ok p with Ok b => b | _ => false end)) (first ++ js) ++ [DeleteMask], 0).
Proof.
  intros HN HA HI M1 M2 NI NO IN MC MP MOK NT SK.
  assert (READY : exists v first js, prepare strtod nd o ex conn keys its = Ok (Go v) /\ first_says keys first /\
    Forall2 (fun it j => says strtod nd (type_of keys) it j /\ (FilesExist ex (item_ins it) = true -> j_infmt j = SFILE) /\ j_infmt j <> GFS /\ j_outfmt j = SFILE)
      (filter (fun it => negb (blank it) && (FilesExist ex (item_ins it) || has_table strtod it)) its) js /\
    holds v (first ++ js) /\ v_mongo v = false /\ v_mode v = mode_of keys /\ v_threads v = threads_of keys /\
    (v_mask_fmt v, v_mask v) = match lookup keys (str "MASK") with
                             | Some l => match parsed ex "MASK" l with Some (f, p :: _) => (f, p) | _ => (UNKNOWNFMT, []) end
                             | None => (UNKNOWNFMT, []) end) by (apply prepare_files_any; assumption).
  destruct READY as (v & first & js & EP & FS & F2 & H & V1 & V2 & V3 & V4).
  exists first, js. split; [exact FS|].
  assert (EF : filter (fun it => negb (blank it) && (FilesExist ex (item_ins it) || has_table strtod it)) its = filter (fun it => negb (blank it) && FilesExist ex (item_ins it)) its).
  { clear - NT. induction NT as [|it l T _ IH]; [reflexivity|]. cbn [filter]. rewrite T, orb_false_r, IH. reflexivity. }
  rewrite EF in F2. split; [eapply Forall2_impl'; [|exact F2]; cbn; tauto|].
  unfold ToolModel.tool. rewrite EP. cbn [obind]. unfold ToolModel.run.
  assert (L : load_mask ex mask_ok v = Go (true, [InitMask SFILE p])).
  { unfold load_mask, mask_of in *. unfold parsed in V4.
    destruct (lookup keys (str "MASK")) as [l|]; [|discriminate].
    destruct (parse_fmt_paths ex (str "MASK") l) as [[[[] [|[|c q] ps]]|]| |]; try discriminate.
    injection V4 as -> ->. destruct (ex (c :: q)) eqn:XE; [|discriminate]. injection MP as <-. cbn [fmt_is andb]. rewrite MOK. reflexivity. }
  rewrite L. cbv iota beta. pose proof H as (_ & A2 & _). rewrite A2.
  assert (RS : run_sets v true 0 (map j_ins (first ++ js)) = Ok (flat_map (com_calls o mask_ids (fun p => match sub_ok p with Ok b => b | _ => false end)) (first ++ js), None)).
  { apply (run_sets_com v (first ++ js)) with (pre := []); [congruence|exact H|]. apply Forall_app. split.
    - unfold first_says in FS. destruct (lookup keys (str "IN")); destruct first as [|j [|]]; try contradiction; [|constructor].
      destruct FS as (_ & FE & F3 & F4). constructor; [|constructor]. split; [exact F3|]. split; [exact F4|]. intros q I. split; [|apply SK].
      unfold FilesExist in FE. destruct (j_ins j); [discriminate|]. rewrite forallb_forall in FE. auto.
    - assert (AL : forall it, In it (filter (fun it => negb (blank it) && FilesExist ex (item_ins it)) its) -> FilesExist ex (item_ins it) = true) by (intros it I; apply filter_In in I; destruct I as [_ I]; apply andb_prop in I; tauto).
      clear - F2 AL SK. induction F2 as [|it j l l' (S & X1 & X2 & X3) _ IH]; [constructor|]. constructor.
      + destruct S as (S1 & _). assert (FE := AL it (or_introl eq_refl)). split; [auto|]. split; [exact X3|]. intros q I. split; [|apply SK].
        rewrite S1 in I. unfold FilesExist in FE. destruct (item_ins it); [discriminate|]. rewrite forallb_forall in FE. auto.
      + apply IH. intros it' I. apply AL. right. exact I. }
  rewrite RS. cbn [obind fst snd]. rewrite V1, V2, V3, MC. cbn [open_calls app]. rewrite ?app_nil_r. reflexivity.
Qed.
End Run.
