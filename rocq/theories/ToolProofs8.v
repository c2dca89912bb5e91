(** Proofs about the raster tool: what start yields, options without effect, failures, subsets without data. *)
From Coq Require Import ZArith Ascii String List Bool Lia.
From Verif Require Import Base StrModel StrSpec StrProofs MapModel MapProofs FsModel BasicModel RasterModel SubsetModel AppModel AppSpec AppProofs ToolModel ToolSpec ToolProofs ToolProofs2 ToolProofs3 ToolProofs4 ToolProofs5 ToolProofs6 ToolProofs7.
Import ListNotations.
Open Scope Z_scope.
Open Scope outcome_scope.

(** ** What start yields *)
Lemma emplace_good m k vals : keys_good m -> vals <> [] -> keys_good (emplace m k vals).
Proof.
  intros [N F] H. split; [apply emplace_NoDup; exact N|]. unfold emplace. destruct (lookup m k); [exact F|]. apply Forall_app. auto.
Qed.
Lemma add_option_good argv m ab : keys_good m -> keys_good (add_option argv m ab).
Proof.
  intros H. unfold add_option. destruct (firstn _ _) as [|x l] eqn:E; [exact H|]. destruct (StringMatch _ _); [exact H|].
  apply emplace_good; [exact H|discriminate].
Qed.
Lemma add_options_good argv l : forall m, keys_good m -> keys_good (fold_left (add_option argv) l m).
Proof. induction l; intros m H; cbn [fold_left]; [exact H|]. apply IHl, add_option_good, H. Qed.
Lemma config_good l : forall st, keys_good (fst st) -> Forall (fun it => it <> []) (snd st) ->
  keys_good (fst (fold_left config_line l st)) /\ Forall (fun it => it <> []) (snd (fold_left config_line l st)).
Proof.
  induction l as [|line l IH]; intros st H1 H2; cbn [fold_left]; [auto|]. apply IH; unfold config_line;
    destruct (TrimSpaces line) as [|c t]; auto; destruct (beqb [c] (str "#")); auto; destruct (beqb [c] (str "-")).
  - destruct (SplitString_d (c :: t) "009") as [|k [|v vs]]; auto. cbn [fst]. apply emplace_good; [exact H1|discriminate].
  - destruct (SplitString_d (c :: t) ";"); auto.
  - destruct (SplitString_d (c :: t) "009") as [|k [|v vs]]; auto.
  - destruct (SplitString_d (c :: t) ";"); auto. cbn [snd]. apply Forall_app. split; [exact H2|]. constructor; [discriminate|constructor].
Qed.
Lemma good_nil : keys_good []. Proof. split; constructor. Qed.
Lemma start_good {V} (strtod : bytes -> V * nat) load argv keys its : start strtod load argv = Ok (Run keys its) ->
  keys_good keys /\ Forall (fun it => it <> []) its.
Proof.
  unfold start. destruct (collect_args strtod argv) as [[[cfg ks]|]| |] eqn:E; cbn [obind]; try discriminate.
  assert (K : keys_good ks).
  { unfold collect_args in E. destruct (_ <? _); [discriminate|]. destruct (scan_args _ _ _ _ _) as [sc| |]; cbn [obind] in E; try discriminate.
    destruct (snd sc ++ [length argv]) eqn:S; [destruct (snd sc); discriminate|]. injection E as _ <-. apply add_options_good, good_nil. }
  destruct cfg as [|c cfg].
  - intros X. injection X as <- <-. split; [exact K|constructor].
  - destruct (load (c :: cfg)) as [[lines|]|]; try discriminate. intros X. injection X as <- <-. apply config_good; [exact K|constructor].
Qed.

(** ** Subsets without data of their own *)

Section Sub.
Context {T D : Type}.
Variable feq : T -> T -> bool.
Variable feqD : D -> D -> bool.
Variable toint : T -> option Z.
Variable toD : T -> D.
Variable ofD : D -> outcome T.
Variable dNODATA : D.
Variable write_ok : list (request T) -> request T -> bool.

Lemma layers_none (subs : list (Z * subset D)) : Forall empty_sub subs -> forall acc,
  subset_layers true subs acc = None \/ subset_layers true subs acc = Some acc.
Proof.
  induction 1 as [|[k s] l [E1 E2] _ IH]; intros acc; cbn [subset_layers]; [auto|]. cbn [snd] in *.
  destruct (s_usable s); cbn [negb]; [|apply IH]. rewrite E1, E2. cbn. auto.
Qed.
Lemma no_data_no_file (r : raster T) dv subs origin default : Forall empty_sub subs -> origin = false ->
  OutputSubsetToFile feqD toint toD ofD dNODATA write_ok r dv subs origin true [] default = Ok ([], false).
Proof.
  intros F ->. unfold OutputSubsetToFile. destruct (ValidateRasterData r); cbn [negb]; [|reflexivity].
  destruct subs as [|ks subs]; [reflexivity|]. unfold PrepareCombSubsetData. cbn [recls_layers].
  destruct (layers_none _ F (-1)) as [-> | ->]; reflexivity.
Qed.

Lemma zput_empty (m : list (Z * subset D)) k s : Forall empty_sub m -> s_data s = None -> s_data2 s = None -> Forall empty_sub (zput m k s).
Proof.
  intros F H1 H2. induction F as [|[k' s'] l P F IH]; cbn [zput]; [constructor; [split; assumption|constructor]|].
  destruct (k <? k'); [constructor; [split; assumption|constructor; assumption]|].
  destruct (k =? k'); [constructor; [split; assumption|exact F]|]. constructor; assumption.
Qed.
Lemma zfind_empty (m : list (Z * subset D)) k s : Forall empty_sub m -> zfind m k = Some s -> s_data s = None /\ s_data2 s = None.
Proof.
  induction 1 as [|[k' s'] l P F IH]; cbn [zfind]; [discriminate|]. destruct (k =? k'); [intros E; injection E as <-; exact P|exact IH].
Qed.
Lemma build_empty (r : raster T) ix groups l : forall (st st' : list (Z * subset D) * list (Z * list Z)), Forall empty_sub (fst st) ->
  ofold (build_step feq toint r ix groups) l st = Ok st' -> Forall empty_sub (fst st').
Proof.
  induction l as [|vi l IH]; intros st st' F E; cbn [ofold] in E; [injection E as <-; exact F|].
  destruct (build_step feq toint r ix groups st vi) as [st1| |] eqn:S; try discriminate. cbn [obind] in E. apply (IH _ _) in E; [exact E|].
  unfold build_step in S. destruct (GetValueByIndex r vi 1) as [cv| |]; cbn [obind] in S; try discriminate.
  destruct (feq cv (r_nodata r)); [injection S as <-; exact F|]. destruct (toint cv) as [z|]; [|discriminate].
  destruct (aget ix vi) as [p| |]; cbn [obind] in S; try discriminate. destruct (r_cols r =? 0); [discriminate|]. injection S as <-. cbn [fst].
  destruct (zfind (fst st) (group_of groups z)) as [s|] eqn:ZF.
  - destruct (zfind_empty _ _ _ F ZF) as [A B]. apply zput_empty; assumption.
  - apply zput_empty; [exact F|reflexivity|reflexivity].
Qed.
Lemma omapm_empty (f : Z * subset D -> outcome (Z * subset D)) : (forall a b, f a = Ok b -> empty_sub a -> empty_sub b) ->
  forall l l', omapm f l = Ok l' -> Forall empty_sub l -> Forall empty_sub l'.
Proof.
  intros P. induction l as [|a l IH]; intros l' E F; cbn [omapm] in E; [injection E as <-; constructor|].
  destruct (f a) as [b| |] eqn:FA; try discriminate. cbn [obind] in E. destruct (omapm f l) as [bs| |]; try discriminate. cbn [obind] in E. injection E as <-.
  inversion F; subst. constructor; [eapply P; eassumption|]. apply IH; auto.
Qed.
Lemma built_empty ord (r r' : raster T) groups (subs : list (Z * subset D)) b :
  BuildSubSet feq toint ord r [] groups = Ok (r', subs, b) -> Forall empty_sub subs.
Proof.
  unfold BuildSubSet. destruct (ValidateRasterData r); cbn [negb]; [|intros E; injection E as _ <- _; constructor].
  destruct (if isnull (r_pos r) || isnull (r_posidx r) then SetCalcPositions feq ord r else Ok (r, true)) as [rb| |]; cbn [obind]; try discriminate.
  destruct (snd rb); cbn [negb]; [|intros E; injection E as _ <- _; constructor].
  destruct (ofold _ _ _) as [st| |] eqn:E1; cbn [obind]; try discriminate. apply build_empty in E1; [|constructor].
  destruct (omapm (fill_global (snd st)) (fst st)) as [s1| |] eqn:E2; cbn [obind]; try discriminate.
  destruct (omapm _ s1) as [s2| |] eqn:E3; cbn [obind]; try discriminate. intros E. injection E as _ <- _.
  eapply omapm_empty; [|exact E3|].
  - intros a x FA EA. unfold fill_local in FA. destruct (deref _) as [g| |]; cbn [obind] in FA; try discriminate.
    destruct (ofold _ _ _) as [pl| |]; cbn [obind] in FA; try discriminate. injection FA as <-. exact EA.
  - eapply omapm_empty; [|exact E2|exact E1].
    intros a x FA EA. unfold fill_global in FA. destruct (ofold _ _ _) as [pl| |]; cbn [obind] in FA; try discriminate. injection FA as <-. exact EA.
Qed.
End Sub.

(** ** Options that have no effect *)
Section NoEffect.
Context {V : Type}.
Variable strtod : bytes -> V * nat.
Variable nd : V.
Variable o : os.
Variable ex : bytes -> bool.
Variable conn : list bytes -> option bool.
Variable mask_ok : datafmt -> bytes -> bool.
Variable files_ok : list bytes -> bool -> V -> outcome bool.
Variable gfs_ok : bytes -> bool -> V -> outcome bool.
Variable mask_ids : list Z.
Variable sub_ok : bytes -> outcome bool.
Notation run := (run nd o ex mask_ok files_ok gfs_ok mask_ids sub_ok).
Notation tool := (tool strtod nd o ex conn mask_ok files_ok gfs_ok mask_ids sub_ok).

Lemma run_core (v w : vars V) : core v w -> v_mode v = v_mode w -> v_threads v = v_threads w -> v_inc v = v_inc w ->
  v_mask_fmt v = v_mask_fmt w -> v_mask v = v_mask w -> run v = run w.
Proof.
  intros (C1 & C2 & C3 & C4 & C5 & C6 & C7 & C8 & C9 & C10 & C11 & C12 & C13) G1 G2 G3 G4 G5.
  assert (P : forall masked i ps t, process nd ex files_ok gfs_ok v masked i ps t = process nd ex files_ok gfs_ok w masked i ps t).
  { intros. unfold process, outputs. rewrite C3, C4, C6, C7, C8, C9, C10, C12, C13, G1, G3. reflexivity. }
  assert (FL : forall f ps, fills o ex mask_ids sub_ok v f ps = fills o ex mask_ids sub_ok w f ps).
  { intros f ps. induction ps as [|p ps IH]; [reflexivity|]. cbn [fills]. rewrite IH. unfold fill. rewrite C3. reflexivity. }
  assert (CS : forall masked i ps t, combine_set o ex mask_ids sub_ok v masked i ps t = combine_set o ex mask_ids sub_ok w masked i ps t).
  { intros. unfold combine_set. rewrite C3, C4, C6, C7, C8, G3. destruct masked; cbn [negb]; [|reflexivity].
    destruct (at_ (v_defaults w) i); cbn [obind]; [|reflexivity|reflexivity]. destruct (at_ (v_in_fmts w) i); cbn [obind]; [|reflexivity|reflexivity]. rewrite FL. reflexivity. }
  assert (R : forall masked l i, run_sets nd o ex files_ok gfs_ok mask_ids sub_ok v masked i l = run_sets nd o ex files_ok gfs_ok mask_ids sub_ok w masked i l).
  { intros masked l. induction l as [|ps l IH]; intros i; [reflexivity|]. cbn [run_sets]. rewrite C11, G1.
    destruct (at_ (v_types w) i); cbn [obind]; [|reflexivity|reflexivity]. rewrite P, CS. destruct (v_mode w); rewrite ?IH; reflexivity. }
  assert (L : load_mask ex mask_ok v = load_mask ex mask_ok w) by (unfold load_mask; rewrite C3, G4, G5; reflexivity).
  unfold ToolModel.run. rewrite L, G1, G2, C5, C3. destruct (load_mask ex mask_ok w) as [c|[masked cm]]; [reflexivity|]. rewrite R. reflexivity.
Qed.

Lemma inc_opts l : forall v v', options strtod nd ex conn v l = Ok (Go v') ->
  v_inc v' = fold_left (fun x kv => if key_is (fst kv) ["INCLUDE_NODATA"%string] then (let (n, ok) := IsInt (hd [] (snd kv)) in if ok then 0 <? n else true) else x) l (v_inc v).
Proof.
  induction l as [|[k vals] l IH]; intros v v' E; [injection E as <-; reflexivity|].
  cbn [options] in E. destruct (option_step strtod nd ex conn v (k, vals)) as [[c|v1]| |] eqn:S; try discriminate. cbn [obind] in E.
  apply step_vars in S. destruct S as (_ & _ & S & _). rewrite (IH _ _ E), S. reflexivity.
Qed.
Lemma inc_keys keys v : NoDup (map fst keys) -> options strtod nd ex conn (vars0 nd) (by_key keys) = Ok (Go v) ->
  v_inc v = match lookup keys (str "INCLUDE_NODATA") with Some l => let (n, ok) := IsInt (hd [] l) in if ok then 0 <? n else true | None => true end.
Proof.
  intros HN E. rewrite (inc_opts _ _ _ E).
  rewrite (fold_one keys HN "INCLUDE_NODATA" (fun (_ : bool) l => let (n, ok) := IsInt (hd [] l) in if ok then 0 <? n else true)).
  destruct (lookup keys (str "INCLUDE_NODATA")); reflexivity.
Qed.


Lemma no_effect k1 k2 its names : NoDup (map fst k1) -> NoDup (map fst k2) -> Forall (accepted ex) k1 -> Forall (accepted ex) k2 ->
  Forall (fun it => it <> []) its ->
  agree_but names k1 k2 ->
  (names = ["DEFAULT"; "DEFAULTVALUE"; "NODATA"; "NODATAVALUE"; "RECLASS"]%string \/
   names = ["DEFAULT"; "DEFAULTVALUE"; "NODATA"; "NODATAVALUE"; "RECLASS"; "OUTDATATYPE"]%string /\ Forall (fun it => (length it <= 4)%nat) its) ->
  lookup k1 (str "IN") = None -> lookup k1 (str "INPUT") = None ->
  tool k1 its = tool k2 its.
Proof.
  intros N1 N2 A1 A2 HI AG NM I1 I2.
  destruct (keys_accept strtod nd ex conn k1 A1) as [v0 E0]. destruct (keys_accept strtod nd ex conn k2 A2) as [w0 F0].
  pose proof (vars_of_keys strtod nd ex conn k1 N1 v0 E0) as X. pose proof (vars_of_keys strtod nd ex conn k2 N2 w0 F0) as Y.
  destruct X as (X1 & X2 & X3 & X4 & X5 & X6 & X7 & _ & _ & _ & _ & _ & _ & X18 & _).
  destruct Y as (Y1 & Y2 & Y3 & Y4 & Y5 & Y6 & Y7 & _ & _ & _ & _ & _ & _ & Y18 & _).
  pose proof (threads_keys strtod nd ex conn k1 v0 N1 E0) as X19. pose proof (threads_keys strtod nd ex conn k2 w0 N2 F0) as Y19.
  pose proof (inc_keys k1 v0 N1 E0) as X20. pose proof (inc_keys k2 w0 N2 F0) as Y20.
  assert (G : forall s, key_is (str s) names = false -> lookup k1 (str s) = lookup k2 (str s)) by (intros s KI; apply AG; intros I; apply in_map_iff in I; destruct I as (n & E & I); unfold key_is in KI; rewrite (proj2 (existsb_exists _ names)) in KI; [discriminate|]; exists n; split; [exact I|rewrite E; apply beqb_refl]).
  unfold both, threads_of in *.
  assert (GG : lookup k1 (str "MODE") = lookup k2 (str "MODE") /\ lookup k1 (str "MONGO") = lookup k2 (str "MONGO") /\ lookup k1 (str "MONGODB") = lookup k2 (str "MONGODB") /\
    lookup k1 (str "MASK") = lookup k2 (str "MASK") /\ lookup k1 (str "IN") = lookup k2 (str "IN") /\ lookup k1 (str "INPUT") = lookup k2 (str "INPUT") /\
    lookup k1 (str "OUT") = lookup k2 (str "OUT") /\ lookup k1 (str "OUTPUT") = lookup k2 (str "OUTPUT") /\ lookup k1 (str "THREAD") = lookup k2 (str "THREAD") /\
    lookup k1 (str "INCLUDE_NODATA") = lookup k2 (str "INCLUDE_NODATA")) by (destruct NM as [-> | [-> _]]; repeat split; apply G; reflexivity).
  destruct GG as (L1 & L2 & L3 & L4 & L5 & L6 & L7 & L8 & L9 & L10).
  rewrite <- L1 in Y1. rewrite <- L2, <- L3 in Y2. rewrite <- L4 in Y3. rewrite <- L5, <- L6 in Y4, Y5, Y6. rewrite <- L7, <- L8 in Y7. rewrite <- L9 in Y19. rewrite <- L10 in Y20.
  rewrite I1, I2 in *. cbn [app map fold_left flat_map] in *.
  assert (AV : exists v1, align o v0 = Ok (Go v1)) by (unfold align; cbn [set_fmts v_ins]; rewrite X6; eexists; reflexivity).
  assert (AW : exists w1, align o w0 = Ok (Go w1)) by (unfold align; cbn [set_fmts v_ins]; rewrite Y6; eexists; reflexivity).
  destruct AV as [v1 E1], AW as [w1 F1].
  pose proof (align_none _ _ _ X6 E1) as B. pose proof (align_none _ _ _ Y6 F1) as C.
  destruct (items_ok strtod nd ex its HI v1) as [v E2]. destruct (items_ok strtod nd ex its HI w1) as [w F2].
  unfold ToolModel.tool, prepare. rewrite E0, F0. cbn [obind]. rewrite E1, F1. cbn [obind]. rewrite E2, F2. cbn [obind].
  pose proof (items_jobs strtod nd ex its v1 v E2) as (GV & _). pose proof (items_jobs strtod nd ex its w1 w F2) as (GW & _).
  destruct B as (B0 & B1 & B2 & B3 & B4 & B5 & B6 & B7 & B8 & B9 & B10 & B11 & B12).
  destruct C as (C0 & C1 & C2 & C3 & C4 & C5 & C6 & C7 & C8 & C9 & C10 & C11 & C12).
  pose proof (same_trans _ _ _ B0 GV) as SV. pose proof (same_trans _ _ _ C0 GW) as SW.
  assert (MK : v_mask_fmt v0 = v_mask_fmt w0 /\ v_mask v0 = v_mask w0) by (rewrite <- Y3 in X3; injection X3 as -> ->; auto).
  assert (CORE : core v1 w1).
  { unfold core, settled_out in *. destruct B0 as (_ & _ & _ & B0 & _), C0 as (_ & _ & _ & C0 & _). rewrite B1, B2, B3, B4, B5, B6, B7, B8, B9, B10, B11, B12, C1, C2, C3, C4, C5, C6, C7, C8, C9, C10, C11, C12, B0, C0.
    rewrite X2, X4, X5, X7, Y2, Y4, Y5, Y7. auto 20. }
  apply run_core.
  - eapply items_core; [exact E2|exact F2|exact CORE|].
    destruct NM as [NM | [_ NM]]; [left|right; exact NM]. subst names.
    assert (T : v_type v0 = v_type w0) by (rewrite X18, Y18, (G "OUTDATATYPE"%string eq_refl); reflexivity).
    unfold same_globals in B0, C0. destruct B0 as (_ & _ & _ & _ & _ & _ & _ & _ & _ & B0 & _), C0 as (_ & _ & _ & _ & _ & _ & _ & _ & _ & C0 & _). congruence.
  - unfold same_globals in SV, SW. destruct SV as (S & _), SW as (S' & _). congruence.
  - unfold same_globals in SV, SW. destruct SV as (_ & S & _), SW as (_ & S' & _). congruence.
  - unfold same_globals in SV, SW. destruct SV as (_ & _ & S & _), SW as (_ & _ & S' & _). congruence.
  - unfold same_globals in SV, SW. destruct SV as (_ & _ & _ & _ & S & _), SW as (_ & _ & _ & _ & S' & _), MK. congruence.
  - unfold same_globals in SV, SW. destruct SV as (_ & _ & _ & _ & _ & S & _), SW as (_ & _ & _ & _ & _ & S' & _), MK. congruence.
Qed.
End NoEffect.
