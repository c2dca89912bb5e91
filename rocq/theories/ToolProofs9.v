(** Proofs about the raster tool: failures. *)
From Coq Require Import ZArith Ascii String List Bool Lia.
From Verif Require Import Base StrModel StrSpec StrProofs MapModel MapProofs FsModel BasicModel RasterModel SubsetModel AppModel AppSpec AppProofs ToolModel ToolSpec ToolProofs ToolProofs2 ToolProofs3 ToolProofs4 ToolProofs5 ToolProofs6 ToolProofs7 ToolProofs8.
Import ListNotations.
Open Scope Z_scope.
Open Scope outcome_scope.

Lemma span_none d s : ~ In d s -> span_delim d s = (s, None).
Proof. induction s as [|c s IH]; intros H; [reflexivity|]. cbn [span_delim]. destruct (ascii_dec c d); [destruct H; left; assumption|]. rewrite IH by (intros I; apply H; right; exact I). reflexivity. Qed.
Lemma split_one d s : s <> [] -> ~ In d s -> SplitString_d s d = [s].
Proof. intros N H. destruct s as [|c s]; [congruence|]. unfold SplitString_d. cbn [length split_loop]. rewrite (span_none d _ H). reflexivity. Qed.

(** A single word as -in or -mask. *)
Lemma parse_word ex tag (a : bytes) : StringMatch tag (str "OUT") = false -> a <> [] -> ~ In ","%char a ->
  exists f, parse_fmt_paths ex tag [a] = Ok (Some (f, [a])) /\ (ex a = true -> f = SFILE).
Proof.
  intros HT N H. unfold parse_fmt_paths. rewrite (split_one _ _ N H), HT. cbn [negb andb FilesExist forallb].
  destruct (ex a); cbn [andb]; [eexists; split; reflexivity|].
  destruct (known_fmt _); eexists; (split; [reflexivity|discriminate]).
Qed.

Section Fail.
Context {V : Type}.
Variable strtod : bytes -> V * nat.
Variable nd : V.
Variable o : os.
Variable ex : bytes -> bool.
Variable conn : list bytes -> option bool.
Variable mask_ok : datafmt -> bytes -> bool.
Variable files_ok : list bytes -> bool -> V -> outcome bool.
Variable gfs_ok : bytes -> bool -> V -> outcome bool.
Variable mask_ids : list Z.
Variable sub_ok : bytes -> outcome bool.
Notation run := (run nd o ex mask_ok files_ok gfs_ok mask_ids sub_ok).
Notation tool := (tool strtod nd o ex conn mask_ok files_ok gfs_ok mask_ids sub_ok).

Lemma load_files (v : vars V) keys : mask_of ex keys = None \/ (exists p, mask_of ex keys = Some p /\ mask_ok SFILE p = true) ->
  (v_mask_fmt v, v_mask v) = match lookup keys (str "MASK") with
                             | Some l => match parsed ex "MASK" l with Some (f, p :: _) => (f, p) | _ => (UNKNOWNFMT, []) end
                             | None => (UNKNOWNFMT, []) end ->
  v_mongo v = false ->
  load_mask ex mask_ok v = Go (masked_by ex keys, match mask_of ex keys with Some p => [InitMask SFILE p] | None => [] end).
Proof.
  intros MK MV NM. unfold load_mask, masked_by, mask_of in *. unfold parsed in MV.
  destruct (lookup keys (str "MASK")) as [l|]; [|injection MV as -> ->; reflexivity].
  destruct (parse_fmt_paths ex (str "MASK") l) as [[[f [|p ps]]|]| |]; try (injection MV as -> ->; reflexivity); [injection MV as -> ->; destruct f; reflexivity|].
  injection MV as -> ->. rewrite NM. destruct f, p as [|c p]; cbn [fmt_is andb]; try reflexivity.
  destruct (ex (c :: p)) eqn:XE; cbn [is_some]; [|reflexivity].
  destruct MK as [MK|(p' & MK & OKM)]; [discriminate|]. injection MK as <-. rewrite OKM. reflexivity.
Qed.

(** A missing input: nothing is read or written, and the return value is 0. *)
Lemma missing_input (keys : smap (list bytes)) (a : bytes) : NoDup (map fst keys) -> Forall (accepted ex) keys ->
  lookup keys (str "MONGO") = None -> lookup keys (str "MONGODB") = None ->
  lookup keys (str "INPUT") = None -> lookup keys (str "OUTPUT") = None ->
  lookup keys (str "IN") = Some [a] -> a <> [] -> ~ In ","%char a -> ex a = false -> mode_of keys <> COM ->
  mask_of ex keys = None \/ (exists p, mask_of ex keys = Some p /\ mask_ok SFILE p = true) ->
  tool keys [] = Ok (open_calls (threads_of keys) (mode_of keys) (mask_of ex keys) ++ close_calls (mask_of ex keys), 0).
Proof.
  intros HN HA M1 M2 NI NO IN AN AC AE MC MK.
  destruct (parse_word ex (str "IN") a eq_refl AN AC) as (f & P & _).
  destruct (keys_accept strtod nd ex conn keys HA) as [v0 E0].
  pose proof (vars_of_keys strtod nd ex conn keys HN v0 E0) as W. destruct W as (W1 & W2 & W3 & W4 & W5 & W6 & W7 & _).
  unfold both in W2, W6. rewrite M1, M2 in W2. rewrite IN, NI in W6. cbn [opt_list app fold_left flat_map] in W2, W6. unfold ins_of, parsed in W6. rewrite P in W6. cbn [app map snd] in W6.
  assert (AL : exists v1, align o v0 = Ok (Go v1)).
  { unfold align. cbn [set_fmts v_ins v_outs]. rewrite W6. destruct (v_outs v0); cbn [obind]; eexists; reflexivity. }
  destruct AL as [v E1].
  assert (EP : prepare strtod nd o ex conn keys [] = Ok (Go v)) by (unfold prepare; rewrite E0; cbn [obind]; rewrite E1; reflexivity).
  destruct (prepare_first strtod nd o ex conn keys [] v HN EP (or_intror NO)) as (v0' & v1 & first & E0' & SG & I1 & O1 & EI & HF & TY & MF).
  rewrite E0 in E0'. injection E0' as <-. cbn [items] in EI. injection EI as ->.
  destruct first as [|j [|]]; [|destruct MF as [MF1 MF2]|contradiction].
  { unfold both in MF. rewrite IN, NI in MF. cbn [opt_list app flat_map] in MF. unfold ins_of, parsed in MF. rewrite P in MF. discriminate. }
  destruct MF1 as ((vals & [X|X] & P' & _) & _); [|congruence]. rewrite IN in X. injection X as <-. rewrite P in P'. injection P' as JF JI.
  assert (G : v_mongo v = false /\ v_mode v = mode_of keys /\ v_threads v = threads_of keys /\ v_mask_fmt v = v_mask_fmt v0 /\ v_mask v = v_mask v0).
  { pose proof (threads_keys strtod nd ex conn keys v0 HN E0). unfold same_globals in SG. unfold mode_of. intuition congruence. }
  destruct G as (G1 & G2 & G3 & G4 & G5).
  assert (MO : v_mode v = MASK \/ v_mode v = DEC \/ v_mode v = MASKDEC).
  { rewrite G2. pose proof (mode_known ex keys HA). destruct (mode_of keys); [auto|exfalso; apply MC; reflexivity|auto|auto|congruence]. }
  unfold ToolModel.tool. rewrite EP. cbn [obind].
  rewrite (run_shape nd o ex mask_ok files_ok gfs_ok mask_ids sub_ok v keys [j] MK); [|congruence|exact G1|exact MO|exact HF|].
  - cbn [filter]. rewrite <- JI. cbn [FilesExist forallb]. rewrite AE. cbn [andb flat_map app]. rewrite G2, G3. reflexivity.
  - constructor; [|constructor]. unfold fits. rewrite <- JI. cbn [FilesExist forallb]. rewrite AE. cbn [andb]. right. reflexivity.
Qed.

(** An input that exists but cannot be read: a member of a null pointer is called. *)
Lemma unreadable_input (keys : smap (list bytes)) (a : bytes) : NoDup (map fst keys) -> Forall (accepted ex) keys ->
  lookup keys (str "MONGO") = None -> lookup keys (str "MONGODB") = None ->
  lookup keys (str "INPUT") = None -> lookup keys (str "OUTPUT") = None ->
  lookup keys (str "IN") = Some [a] -> a <> [] -> ~ In ","%char a -> ex a = true -> mode_of keys <> COM ->
  mask_of ex keys = None \/ (exists p, mask_of ex keys = Some p /\ mask_ok SFILE p = true) ->
  (forall dv, files_ok [a] (masked_by ex keys) dv = Ok false) ->
  forall its, Forall (fun it => it <> []) its -> tool keys its = UB.
Proof.
  intros HN HA M1 M2 NI NO IN AN AC AE MC MK FB its HI.
  destruct (parse_word ex (str "IN") a eq_refl AN AC) as (f & P & FS). specialize (FS AE). subst f.
  assert (READY : match lookup keys (str "IN") with
  | Some l => exists ps, parse_fmt_paths ex (str "IN") l = Ok (Some (SFILE, ps)) /\ FilesExist ex ps = true
  | None => True
  end).
  { rewrite IN. exists [a]. split; [exact P|]. cbn. rewrite AE. reflexivity. }
  destruct (prepare_files_any strtod nd o ex conn keys its HN HA HI M1 M2 NI NO READY) as (v & first & js & EP & FS & F2 & H & V1 & V2 & V3 & V4).
  unfold first_says in FS. rewrite IN in FS. destruct first as [|j [|]]; try contradiction. destruct FS as (FS1 & FE & FI & FO).
  destruct FS1 as ((vals & [X|X] & P' & _) & _); [|congruence]. rewrite IN in X. injection X as <-. rewrite P in P'. injection P' as JF JI.
  unfold ToolModel.tool. rewrite EP. cbn [obind]. unfold ToolModel.run. rewrite (load_files v keys MK V4 V1). cbv iota beta.
  cbn [app] in H. pose proof H as (A1 & A2 & _ & _ & A5 & _ & _ & A8 & _). rewrite A2. cbn [map run_sets].
  assert (N : nth_error (j :: js) 0 = Some j) by reflexivity.
  rewrite A8, (at_map _ _ _ _ N). cbn [obind].
  assert (PR : process nd ex files_ok gfs_ok v (masked_by ex keys) 0 (j_ins j) (out_type (j_type j)) = UB).
  { unfold process. rewrite A1, A5, !(at_map _ _ _ _ N). cbn [obind]. rewrite FI, FE. cbn [fmt_is andb]. rewrite <- JI, FB. reflexivity. }
  rewrite PR, V2. pose proof (mode_known ex keys HA). destruct (mode_of keys); try reflexivity; congruence.
Qed.

(** Combining without a mask. *)
Lemma com_without_mask keys its l ps : NoDup (map fst keys) -> Forall (accepted ex) keys -> Forall (fun it => it <> []) its ->
  lookup keys (str "MONGO") = None -> lookup keys (str "MONGODB") = None ->
  lookup keys (str "INPUT") = None -> lookup keys (str "OUTPUT") = None ->
  lookup keys (str "IN") = Some l -> parse_fmt_paths ex (str "IN") l = Ok (Some (SFILE, ps)) -> FilesExist ex ps = true ->
  mode_of keys = COM -> mask_of ex keys = None ->
  tool keys its = Ok ([SetThreads (threads_of keys)], 1).
Proof.
  intros HN HA HI M1 M2 NI NO IN P FE MC MK.
  assert (READY : match lookup keys (str "IN") with
  | Some l => exists ps, parse_fmt_paths ex (str "IN") l = Ok (Some (SFILE, ps)) /\ FilesExist ex ps = true
  | None => True
  end) by (rewrite IN; eauto).
  destruct (prepare_files_any strtod nd o ex conn keys its HN HA HI M1 M2 NI NO READY) as (v & first & js & EP & FS & F2 & H & V1 & V2 & V3 & V4).
  unfold first_says in FS. rewrite IN in FS. destruct first as [|j [|]]; try contradiction.
  unfold ToolModel.tool. rewrite EP. cbn [obind]. unfold ToolModel.run. rewrite (load_files v keys (or_introl MK) V4 V1). cbv iota beta.
  cbn [app] in H. pose proof H as (_ & A2 & _ & _ & _ & _ & _ & A8 & _). rewrite A2. cbn [map run_sets].
  assert (N : nth_error (j :: js) 0 = Some j) by reflexivity.
  rewrite A8, (at_map _ _ _ _ N). cbn [obind]. rewrite V2, MC. unfold combine_set, masked_by. rewrite MK. cbn [is_some negb obind fst snd app]. rewrite V3. reflexivity.
Qed.

(** A mask that does not exist counts as none. *)
Lemma mask_missing (keys : smap (list bytes)) (m : bytes) : lookup keys (str "MASK") = Some [m] -> m <> [] -> ~ In ","%char m -> ex m = false -> mask_of ex keys = None.
Proof.
  intros L N C E. unfold mask_of. rewrite L. destruct (parse_word ex (str "MASK") m eq_refl N C) as (f & -> & _).
  destruct f; try reflexivity. destruct m; [reflexivity|]. rewrite E. reflexivity.
Qed.
End Fail.
