(** Files by their names: which names. *)
From Coq Require Import ZArith Lia Ascii String List Bool.
From Flocq Require Import BinarySingleNaN.
From Verif Require Import Base ListLib StrModel StrSpec StrProofs MapModel BasicModel FloatModel TypeModel CoordFloatModel NumModel FsModel FsSpec FsProofs RasterModel RasterSpec CopyModel AscModel CellModel GdalModel
  LayersModel DiskModel DiskSpec.
Import ListNotations.
Open Scope Z_scope.
Open Scope outcome_scope.

Lemma filetype_match o name w : StringMatch (filetype o name) w = true <-> Forall2 same_letter (GetSuffix o name) w.
Proof.
  unfold filetype. rewrite StringMatch_iff. unfold GetUpper. generalize (GetSuffix o name). intros l. revert w.
  induction l as [|c l IH]; intros w; cbn [map].
  - split; intros H; inversion H; constructor.
  - split; intros H; inversion H as [|? b ? w' HA HB]; subst; constructor; try (apply IH; assumption).
    + apply toupper_same in HA. rewrite toupper_idem in HA. apply toupper_same. exact HA.
    + apply toupper_same. rewrite toupper_idem. apply toupper_same. exact HA.
Qed.

(** The loop over the layers. *)
Lemma run_names_in {S} (step : S -> Z -> outcome S) (go : S -> bool) (names : S -> list bytes) (f : Z -> bytes) : forall ks,
  (forall k st st', In k ks -> step st k = Ok st' ->
     (go st = false -> go st' = false /\ names st' = names st) /\
     (go st = true -> go st' = true /\ names st' = names st ++ [f k] \/ go st' = false /\ names st' = names st)) ->
  forall st st', ofold step ks st = Ok st' ->
  (go st = false -> go st' = false /\ names st' = names st) /\
  (go st = true -> exists rest, names st ++ map f ks = names st' ++ rest /\ (go st' = true -> rest = [])).
Proof.
  induction ks as [|k ks IH]; intros ST st st'; cbn [ofold].
  - intros [= <-]. split; [auto|]. intros _. exists []. cbn [map]. auto.
  - destruct (step st k) as [st1| |] eqn:E; cbn [obind]; try discriminate. intros R. destruct (ST _ _ _ (or_introl eq_refl) E) as [A B].
    destruct (IH (fun k' a b I => ST k' a b (or_intror I)) _ _ R) as [A1 B1]. split.
    + intros G. destruct (A G) as [G1 N1]. destruct (A1 G1) as [G2 N2]. split; [exact G2|congruence].
    + intros G. destruct (B G) as [[G1 N1]|[G1 N1]].
      * destruct (B1 G1) as (rest & E1 & Z1). exists rest. split; [|exact Z1]. rewrite <- E1, N1, <- app_assoc. reflexivity.
      * destruct (A1 G1) as [G2 N2]. exists (map f (k :: ks)). split; [congruence|]. congruence.
Qed.

Lemma run_names {S} (step : S -> Z -> outcome S) (go : S -> bool) (names : S -> list bytes) (f : Z -> bytes) :
  (forall st k st', step st k = Ok st' ->
     (go st = false -> go st' = false /\ names st' = names st) /\
     (go st = true -> go st' = true /\ names st' = names st ++ [f k] \/ go st' = false /\ names st' = names st)) ->
  forall ks st st', ofold step ks st = Ok st' ->
  (go st = false -> go st' = false /\ names st' = names st) /\
  (go st = true -> exists rest, names st ++ map f ks = names st' ++ rest /\ (go st' = true -> rest = [])).
Proof. intros ST ks. apply run_names_in. intros k st st' _. apply ST. Qed.

Lemma itoa_no_slash z : ~ In "/"%char (itoa z).
Proof.
  intros I. assert (D : forall d, Forall (fun c => isdigit c = true) d -> ~ In "/"%char d).
  { intros d F X. pose proof (proj1 (Forall_forall _ _) F _ X). discriminate. }
  destruct (itoa_canonical z) as [(d & E & _ & _ & F & _)|(d & E & _ & _ & F & _)]; rewrite E in I; [exact (D d F I)|].
  destruct I as [I|I]; [discriminate|exact (D d F I)].
Qed.

Definition starts {A} (part whole : list A) (complete : bool) : Prop := exists rest, whole = part ++ rest /\ (complete = true -> rest = []).

Lemma starts_nil {A} (whole : list A) : starts [] whole false.
Proof. exists whole. split; [reflexivity|discriminate]. Qed.

Lemma tif_names o g35 g37 s ord made moved h opts r name ok files :
  OutputFileByGdal o g35 g37 s ord made moved h opts r name = Ok (ok, files) ->
  starts (map fst files) (if r_is2d r then map (fun k => AppendCoreFileName o (GetAbsolutePath o name) (itoa (k + 1)) "_") (zseq (r_nlyrs r)) else [GetAbsolutePath o name]) ok.
Proof.
  unfold OutputFileByGdal. cbv zeta.
  destruct (at_get h K_NROWS) as [d1| |]; cbn [obind]; try discriminate. destruct (f_int d1) as [rows| |]; cbn [obind]; try discriminate.
  destruct (at_get h K_NCOLS) as [d2| |]; cbn [obind]; try discriminate. destruct (f_int d2) as [cols| |]; cbn [obind]; try discriminate.
  destruct (r_is2d r).
  - destruct (GetPathFromFullName o (GetAbsolutePath o name)) as [|c p]; [intros [= <- <-]; apply starts_nil|].
    match goal with |- context [ofold ?F _ _] => set (step := F) end.
    destruct (ofold step (zseq (r_nlyrs r)) (true, [], None)) as [[[go fs] buf]| |] eqn:E; cbn [obind]; try discriminate. cbn [fst]. intros [= <- <-].
    destruct (run_names step (fun st => fst (fst st)) (fun st => map fst (snd (fst st))) (fun k => AppendCoreFileName o (GetAbsolutePath o name) (itoa (k + 1)) "_")) with (2 := E) as [_ B].
    + clear. intros [[go fs] buf] k st'. unfold step. cbn [fst snd]. destruct go; cbn [negb].
      2:{ intros [= <-]. cbn [fst snd]. split; [auto|discriminate]. }
      intros R. split; [discriminate|]. intros _.
      destruct (imul rows cols); cbn [obind] in R; try discriminate. destruct (layer_buffer _ _ _ _ _); cbn [obind] in R; try discriminate.
      destruct (WriteSingleGeotiff _ _ _ _ _ _ _ _ _) as [[t|]| |]; cbn [obind] in R; try discriminate; injection R as <-; cbn [fst snd]; [left|right]; auto.
      rewrite map_app. auto.
    + destruct (B eq_refl) as (rest & E1 & Z1). cbn [fst snd map app] in E1. exists rest. auto.
  - destruct (if isnull (r_pos r) || isnull (r_posidx r) then _ else _) as [buf| |]; cbn [obind]; try discriminate.
    destruct (WriteSingleGeotiff _ _ _ _ _ _ _ _ _) as [[t|]| |]; cbn [obind]; try discriminate; intros [= <- <-]; [|apply starts_nil].
    exists []. auto.
Qed.

Lemma asc_names {T} (show : T -> bytes) feq o asserts ord1 ord2 opened h r name r' ok files :
  OutputAscFile show feq o asserts ord1 ord2 opened h r name = Ok (r', ok, files) ->
  starts (map fst files) (if r_is2d r' then map (fun k => AppendCoreFileName o (GetAbsolutePath o name) (itoa k) "_") (zseq (r_nlyrs r')) else [GetAbsolutePath o name]) ok.
Proof.
  unfold OutputAscFile. cbv zeta.
  match goal with |- (let* rp := ?m in _) = _ -> _ => destruct m as [[r1 pos]| |] end; cbn [obind fst snd]; try discriminate.
  destruct (at_get h K_NROWS) as [d1| |]; cbn [obind]; try discriminate. destruct (f_int d1) as [rows| |]; cbn [obind]; try discriminate.
  destruct (at_get h K_NCOLS) as [d2| |]; cbn [obind]; try discriminate. destruct (f_int d2) as [cols| |]; cbn [obind]; try discriminate.
  destruct (r_is2d r1) eqn:D.
  - destruct (GetPathFromFullName o (GetAbsolutePath o name)) as [|c p]; [intros [= <- <- <-]; apply starts_nil|].
    match goal with |- context [ofold ?F _ _] => set (step := F) end.
    destruct (ofold step (zseq (r_nlyrs r1)) (true, [])) as [[go fs]| |] eqn:E; cbn [obind]; try discriminate. cbn [fst snd]. intros [= <- <- <-]. rewrite D.
    destruct (run_names step fst (fun st => map fst (snd st)) (fun k => AppendCoreFileName o (GetAbsolutePath o name) (itoa k) "_")) with (2 := E) as [_ B].
    + clear. intros [go fs] k st'. unfold step. cbn [fst snd]. destruct go; cbn [negb].
      2:{ intros [= <-]. cbn [fst snd]. split; [auto|discriminate]. }
      intros R. split; [discriminate|]. intros _.
      destruct (WriteAscHeaders _ _) as [[t|]| |]; cbn [obind] in R; try discriminate; [|injection R as <-; right; auto].
      destruct (scan_grid _ _ _ _ _ _ _ _ _); cbn [obind] in R; try discriminate. injection R as <-. left. cbn [fst snd]. rewrite map_app. auto.
    + destruct (B eq_refl) as (rest & E1 & Z1). cbn [fst snd map app] in E1. exists rest. auto.
  - destruct (WriteAscHeaders _ _) as [[t|]| |]; cbn [obind]; try discriminate; [|intros [= <- <- <-]; apply starts_nil].
    destruct (scan_grid _ _ _ _ _ _ _ _ _); cbn [obind]; try discriminate. intros [= <- <- <-]. rewrite D. exists []. auto.
Qed.

(** Names of a named file. *)
Lemma name_facts o f a d core suf : named o f a d core suf ->
  GetAbsolutePath o f = a /\ GetAbsolutePath o a = a /\ GetSuffix o a = suf /\ GetPathFromFullName o f = d ++ ["/"%char] /\ GetPathFromFullName o a = d ++ ["/"%char] /\
  (forall t, ReplaceSuffix o a t = file_name d core t) /\
  (dir_form o d -> forall k, AppendCoreFileName o a (itoa k) "_" = layer_file d core suf k).
Proof.
  intros (R & RA & N & P & S). split; [now apply resolves_abs|]. split; [now apply resolves_abs|]. split; [exact (GetSuffix_parts o a a d core suf RA P S)|].
  split; [exact (GetPath_parts o f a d core suf R N P)|]. split; [exact (GetPath_parts o a a d core suf RA N P)|].
  split; [intros t; exact (ReplaceSuffix_parts o a a d core suf t RA N P S)|].
  intros DF k. rewrite (Append_parts o a a d core suf (itoa k) "_" RA N P S DF). reflexivity.
Qed.

Lemma parts_replaced a d core suf t : path_parts a d core suf -> ~ In "/"%char t -> ~ In "."%char t -> path_parts (file_name d core t) d core t.
Proof. intros (_ & C & _ & _) S D. split; [reflexivity|auto]. Qed.

Lemma settled_named o a d core suf t : path_parts a d core suf -> ~ In "/"%char t -> ~ In "."%char t -> t <> [] -> settled o (file_name d core t) ->
  named o (file_name d core t) (file_name d core t) d core t.
Proof. intros P S D N [R ND]. split; [exact R|]. split; [exact R|]. split; [exact ND|]. split; [exact (parts_replaced a d core suf t P S D)|exact N]. Qed.

Lemma asc_text : ~ In "/"%char (str "asc") /\ ~ In "."%char (str "asc") /\ str "asc" <> [] /\ asc_suffix (str "asc") /\ ~ tif_suffix (str "asc").
Proof.
  repeat split; try (intros [?|[?|[?|[]]]]; discriminate); try discriminate.
  - repeat constructor; left; reflexivity.
  - intros H. inversion H as [|? ? ? ? A]; subst. apply toupper_same in A. discriminate.
Qed.
Lemma tif_text : ~ In "/"%char (str "tif") /\ ~ In "."%char (str "tif") /\ str "tif" <> [] /\ tif_suffix (str "tif") /\ ~ asc_suffix (str "tif").
Proof.
  repeat split; try (intros [?|[?|[?|[]]]]; discriminate); try discriminate.
  - repeat constructor; left; reflexivity.
  - intros H. inversion H as [|? ? ? ? A]; subst. apply toupper_same in A. discriminate.
Qed.
Lemma not_both suf : asc_suffix suf -> ~ tif_suffix suf.
Proof.
  intros A B. inversion A as [|? ? ? ? X]; subst. inversion B as [|? ? ? ? Y]; subst. apply toupper_same in X, Y. rewrite X in Y. discriminate.
Qed.

Lemma starts_map {A B} (f : A -> B) part whole ok : starts part whole ok -> starts (map f part) (map f whole) ok.
Proof. intros (rest & -> & Z). exists (map f rest). rewrite map_app. split; [reflexivity|]. intros O. rewrite (Z O). reflexivity. Qed.

Section Names.
Variables (gdal g35 g37 asserts : bool) (s : rdt) (ord1 ord2 : list nat) (ord : bytes -> list nat) (opened made moved : bytes -> bool) (o : os).

(** What one of the two writers does under a name that is its own absolute form. *)
Lemma out_tif_names h opts r d core suf r' ok files : named o (file_name d core suf) (file_name d core suf) d core suf -> dir_form o d ->
  out_tif g35 g37 s ord made moved o h opts r (file_name d core suf) = Ok (r', ok, files) ->
  r' = r /\ starts (map fst files) (names_of r d core suf 1) ok.
Proof.
  intros NA DF. destruct (name_facts _ _ _ _ _ _ NA) as (_ & AA & _ & _ & _ & _ & AP). unfold out_tif.
  destruct (OutputFileByGdal _ _ _ _ _ _ _ _ _ _ _) as [[ok1 fs]| |] eqn:E; cbn [obind fst snd]; try discriminate. intros [= <- <- <-]. split; [reflexivity|].
  pose proof (tif_names _ _ _ _ _ _ _ _ _ _ _ _ _ E) as ST. rewrite map_map. cbn [fst]. unfold names_of. rewrite AA in ST.
  destruct (r_is2d r); [|exact ST]. rewrite (map_ext _ (fun k => layer_file d core suf (k + 1))) in ST by (intros k; apply AP, DF). exact ST.
Qed.

Lemma out_asc_names h r d core suf r' ok files : named o (file_name d core suf) (file_name d core suf) d core suf -> dir_form o d ->
  out_asc asserts s ord1 ord2 opened o h r (file_name d core suf) = Ok (r', ok, files) ->
  starts (map fst files) (names_of r' d core suf 0) ok.
Proof.
  intros NA DF. destruct (name_facts _ _ _ _ _ _ NA) as (_ & AA & _ & _ & _ & _ & AP). unfold out_asc.
  destruct (OutputAscFile _ _ _ _ _ _ _ _ _ _) as [[[r1 ok1] fs]| |] eqn:E; cbn [obind fst snd]; try discriminate. intros [= <- <- <-].
  pose proof (asc_names _ _ _ _ _ _ _ _ _ _ _ _ _ E) as ST. rewrite map_map. cbn [fst]. unfold names_of. rewrite AA in ST.
  destruct (r_is2d r1); [|exact ST]. rewrite (map_ext _ (fun k => layer_file d core suf (k + 0))) in ST by (intros k; rewrite Z.add_0_r; apply AP, DF). exact ST.
Qed.

Lemma named_parts f a d core suf : named o f a d core suf -> a = file_name d core suf.
Proof. intros (_ & _ & _ & (E & _) & _). exact E. Qed.

Lemma named_self f a d core suf : named o f a d core suf -> named o a a d core suf.
Proof. intros (R & RA & N). split; [exact RA|]. split; [exact RA|exact N]. Qed.

(** Which writer, under which name. *)
Lemma output_cases h opts r f a d core suf suf' : named o f a d core suf -> written_suffix gdal suf suf' -> settled o (file_name d core suf') ->
  named o (file_name d core suf') (file_name d core suf') d core suf' /\
  (asc_suffix suf' /\ OutputToFile gdal g35 g37 asserts s ord1 ord2 ord opened made moved o h opts r f =
     (if ValidateRasterData r then out_asc asserts s ord1 ord2 opened o h r (file_name d core suf') else Ok (r, false, [])) \/
   tif_suffix suf' /\ OutputToFile gdal g35 g37 asserts s ord1 ord2 ord opened made moved o h opts r f =
     (if ValidateRasterData r then out_tif g35 g37 s ord made moved o h opts r (file_name d core suf') else Ok (r, false, []))).
Proof.
  intros NA W SE. destruct (name_facts _ _ _ _ _ _ NA) as (AF & AA & SU & PF & PA & RS & _). pose proof (named_parts _ _ _ _ _ NA) as EA.
  pose proof NA as (_ & _ & _ & PP & _). unfold OutputToFile. rewrite PF. replace (d ++ ["/"%char]) with (hd "/"%char (d ++ ["/"%char]) :: tl (d ++ ["/"%char])) by (destruct d; reflexivity).
  cbv zeta. rewrite AF. pose proof (filetype_match o a ASCIIExtension) as MA. pose proof (filetype_match o a GTiffExtension) as MT. rewrite SU in MA, MT.
  destruct asc_text as (A1 & A2 & A3 & A4 & A5). destruct tif_text as (T1 & T2 & T3 & T4 & T5).
  destruct W as [(SA & ->)|[(NS & GD & ST & ->)|[(NS & GD & NT & ->)|(NS & GD & ->)]]].
  - rewrite EA in NA. split; [rewrite <- EA; apply (named_self f); rewrite EA; exact NA|]. left. split; [exact SA|]. rewrite (proj2 MA SA), <- EA. destruct (ValidateRasterData r); reflexivity.
  - rewrite EA in NA. split; [rewrite <- EA; apply (named_self f); rewrite EA; exact NA|]. right. split; [exact ST|].
    destruct (StringMatch (filetype o a) ASCIIExtension); [exfalso; apply NS, MA; reflexivity|]. rewrite GD, (proj2 MT ST), <- EA. destruct (ValidateRasterData r); reflexivity.
  - split; [apply (settled_named o a d core suf); assumption|]. right. split; [exact T4|].
    destruct (StringMatch (filetype o a) ASCIIExtension); [exfalso; apply NS, MA; reflexivity|]. rewrite GD.
    destruct (StringMatch (filetype o a) GTiffExtension); [exfalso; apply NT, MT; reflexivity|]. rewrite RS. destruct (ValidateRasterData r); reflexivity.
  - split; [apply (settled_named o a d core suf); assumption|]. left. split; [exact A4|].
    destruct (StringMatch (filetype o a) ASCIIExtension); [exfalso; apply NS, MA; reflexivity|]. rewrite GD, RS. destruct (ValidateRasterData r); reflexivity.
Qed.

Lemma output_names h opts r f a d core suf suf' n r' ok files : named o f a d core suf -> dir_form o d -> written_suffix gdal suf suf' -> settled o (file_name d core suf') ->
  first_number suf' n -> OutputToFile gdal g35 g37 asserts s ord1 ord2 ord opened made moved o h opts r f = Ok (r', ok, files) ->
  starts (map fst files) (names_of r' d core suf' n) ok.
Proof.
  intros NA DF W SE FN. destruct (output_cases h opts r f a d core suf suf' NA W SE) as (N2 & [(SA & ->)|(ST & ->)]).
  - destruct FN as [(_ & ->)|(ST & _)]; [|exfalso; exact (not_both _ SA ST)]. destruct (ValidateRasterData r); [apply out_asc_names; assumption|]. intros [= <- <- <-]. apply starts_nil.
  - destruct FN as [(SA & _)|(_ & ->)]; [exfalso; exact (not_both _ SA ST)|]. destruct (ValidateRasterData r).
    + intros E. destruct (out_tif_names _ _ _ _ _ _ _ _ _ N2 DF E) as [-> R]. exact R.
    + intros [= <- <- <-]. apply starts_nil.
Qed.

Definition format_of (suf : bytes) (c : filed) : Prop :=
  match c with CText _ => asc_suffix suf | CTif _ => tif_suffix suf end.

Lemma write_names h opts values f a d core suf suf' n c : named o f a d core suf -> written_suffix gdal suf suf' -> settled o (file_name d core suf') ->
  WriteRasterToFile gdal g35 g37 s ord opened made moved o h opts values f = Ok (Some (n, c)) -> n = file_name d core suf' /\ format_of suf' c.
Proof.
  intros NA W SE. destruct (name_facts _ _ _ _ _ _ NA) as (AF & AA & SU & PF & PA & RS & _). pose proof (named_parts _ _ _ _ _ NA) as EA.
  unfold WriteRasterToFile. rewrite PF. replace (d ++ ["/"%char]) with (hd "/"%char (d ++ ["/"%char]) :: tl (d ++ ["/"%char])) by (destruct d; reflexivity).
  cbv zeta. rewrite AF. pose proof (filetype_match o a ASCIIExtension) as MA. pose proof (filetype_match o a GTiffExtension) as MT. rewrite SU in MA, MT.
  assert (WA : forall suf, asc_suffix suf -> settled o (file_name d core suf) -> write_asc s opened o h values (file_name d core suf) = Ok (Some (n, c)) -> n = file_name d core suf /\ format_of suf c).
  { intros t ST [R _]. apply resolves_abs in R. unfold write_asc. rewrite R. destruct (WriteSingleAsc _ _ _ _ _) as [[x|]| |]; cbn [obind option_map]; try discriminate. intros [= <- <-]. auto. }
  assert (WT : forall suf, tif_suffix suf -> write_tif g35 g37 s ord made moved h opts values (file_name d core suf) = Ok (Some (n, c)) -> n = file_name d core suf /\ format_of suf c).
  { intros t ST. unfold write_tif. destruct (WriteSingleGeotiff _ _ _ _ _ _ _ _ _) as [[x|]| |]; cbn [obind option_map]; try discriminate. intros [= <- <-]. auto. }
  destruct W as [(SA & ->)|[(NS & GD & ST & ->)|[(NS & GD & NT & ->)|(NS & GD & ->)]]].
  - rewrite (proj2 MA SA), EA. apply WA; assumption.
  - destruct (StringMatch (filetype o a) ASCIIExtension); [exfalso; apply NS, MA; reflexivity|]. rewrite GD, (proj2 MT ST), EA. apply WT; assumption.
  - destruct (StringMatch (filetype o a) ASCIIExtension); [exfalso; apply NS, MA; reflexivity|]. rewrite GD.
    destruct (StringMatch (filetype o a) GTiffExtension); [exfalso; apply NT, MT; reflexivity|]. rewrite RS. apply WT, tif_text.
  - destruct (StringMatch (filetype o a) ASCIIExtension); [exfalso; apply NS, MA; reflexivity|]. rewrite GD, RS. apply WA; [apply asc_text|exact SE].
Qed.

Lemma fullsize_names h opts full fsize lyrs nv f a d core suf suf' ok files : named o f a d core suf -> dir_form o d -> written_suffix gdal suf suf' ->
  settled o (file_name d core suf') ->
  (forall k, 1 <= k <= lyrs -> settled o (layer_file d core suf k) /\ settled o (layer_file d core suf' k)) ->
  OutputFullsizeToFiles gdal g35 g37 s ord opened made moved o h opts full fsize lyrs nv f = Ok (ok, files) ->
  starts (map fst files) (if lyrs =? 1 then [file_name d core suf'] else map (fun k => layer_file d core suf' (k + 1)) (zseq lyrs)) ok.
Proof.
  intros NA DF W SE SL. unfold OutputFullsizeToFiles. destruct full as [arr|]; [|intros [= <- <-]; apply starts_nil].
  destruct (lyrs <? 1) eqn:L1; [intros [= <- <-]; apply starts_nil|]. destruct (lyrs =? 1) eqn:L2.
  - destruct (WriteRasterToFile _ _ _ _ _ _ _ _ _ _ _ _ _) as [[[n c]|]| |] eqn:E; cbn [obind]; try discriminate; intros [= <- <-]; [|apply starts_nil].
    destruct (write_names _ _ _ _ _ _ _ _ _ _ _ NA W SE E) as [-> _]. exists []. auto.
  - match goal with |- context [ofold ?F _ _] => set (step := F) end.
    destruct (ofold step (zseq lyrs) _) as [[[go fs] buf]| |] eqn:E; cbn [obind]; try discriminate. cbn [fst]. intros [= <- <-].
    assert (AP : forall k, AppendCoreFileName o f (itoa k) "_" = layer_file d core suf k).
    { pose proof NA as (R & RA & N & P & S). intros k. rewrite (Append_parts o f a d core suf (itoa k) "_" R N P S DF). reflexivity. }
    assert (K : forall k st st', In k (zseq lyrs) -> step st k = Ok st' ->
      (fst (fst st) = false -> fst (fst st') = false /\ map fst (snd (fst st')) = map fst (snd (fst st))) /\
      (fst (fst st) = true -> fst (fst st') = true /\ map fst (snd (fst st')) = map fst (snd (fst st)) ++ [layer_file d core suf' (k + 1)] \/
                              fst (fst st') = false /\ map fst (snd (fst st')) = map fst (snd (fst st)))).
    { intros k [[go1 fs1] tmp] st' IK. apply zseq_In in IK. unfold step. cbn [fst snd]. destruct (take_layer _ _ _ _ _) as [tmp'| |]; cbn [obind]; try discriminate.
      destruct go1; [|intros [= <-]; cbn [fst snd]; split; [auto|discriminate]]. intros R. split; [discriminate|]. intros _. rewrite AP in R.
      destruct (SL (k + 1)) as [S1 S2]; [lia|].
      assert (NL : named o (layer_file d core suf (k + 1)) (layer_file d core suf (k + 1)) d (core ++ "_"%char :: itoa (k + 1)) suf).
      { pose proof NA as (_ & _ & _ & (_ & C & D1 & D2) & SN). destruct S1 as [S1 S1']. repeat (split; [assumption|]). split; [|exact SN]. split; [reflexivity|].
        split; [|auto]. intros X. apply in_app_or in X as [X|[X|X]]; [auto|discriminate|]. exact (itoa_no_slash _ X). }
      destruct (WriteRasterToFile _ _ _ _ _ _ _ _ _ _ _ _ _) as [[[n c]|]| |] eqn:EW; cbn [obind] in R; try discriminate; injection R as <-; cbn [fst snd]; [|right; auto].
      left. split; [reflexivity|]. rewrite map_app. cbn [map fst]. destruct (write_names _ _ _ _ _ _ _ _ _ _ _ NL W S2 EW) as [-> _]. reflexivity. }
    destruct (run_names_in step (fun st => fst (fst st)) (fun st => map fst (snd (fst st))) (fun k => layer_file d core suf' (k + 1)) (zseq lyrs) K _ _ E) as [_ B].
    destruct (B eq_refl) as (rest & E1 & Z1). cbn [fst snd map app] in E1. exists rest. auto.
Qed.

(** A name without directory. *)
Lemma no_slash f a : resolves o f a -> not_directory o a -> ~ In "/"%char a -> GetPathFromFullName o f = [].
Proof.
  intros R N S. apply resolves_abs in R. unfold GetPathFromFullName. rewrite R, (not_directory_abs _ _ N). rewrite find_last_none by exact S. reflexivity.
Qed.

(** A name without dot. *)
Lemma no_dot h opts r f a r' ok files : resolves o f a -> resolves o a a -> ~ In "."%char a -> resolves o [] [] -> not_directory o [] -> opened [] = false -> made [] = false ->
  OutputToFile gdal g35 g37 asserts s ord1 ord2 ord opened made moved o h opts r f = Ok (r', ok, files) -> ok = false /\ files = [].
Proof.
  intros R RA ND RE NE OE ME. pose proof R as RF. apply resolves_abs in RF. pose proof (GetSuffix_nodot o a a RA ND) as SU. pose proof (no_slash [] [] RE NE ltac:(intros [])) as PE. apply resolves_abs in RE.
  unfold OutputToFile. destruct (GetPathFromFullName o f); [intros [= <- <- <-]; auto|]. cbv zeta. rewrite RF. destruct (ValidateRasterData r); cbn [negb]; [|intros [= <- <- <-]; auto].
  pose proof (filetype_match o a ASCIIExtension) as MA. pose proof (filetype_match o a GTiffExtension) as MT. rewrite SU in MA, MT.
  destruct (StringMatch (filetype o a) ASCIIExtension). { pose proof (proj1 MA eq_refl) as X. inversion X. }
  destruct (StringMatch (filetype o a) GTiffExtension). { pose proof (proj1 MT eq_refl) as X. inversion X. }
  assert (RS : forall t, ReplaceSuffix o a t = []) by (intros t; unfold ReplaceSuffix; rewrite SU; destruct (GetPathFromFullName o a); reflexivity).
  rewrite !RS. destruct gdal.
  - unfold out_tif. destruct (OutputFileByGdal _ _ _ _ _ _ _ _ _ _ _) as [[ok1 fs]| |] eqn:E; cbn [obind fst snd]; try discriminate. intros [= <- <- <-].
    unfold OutputFileByGdal in E. cbv zeta in E. rewrite RE in E.
    destruct (at_get h K_NROWS) as [d1| |]; cbn [obind] in E; try discriminate. destruct (f_int d1) as [rows| |]; cbn [obind] in E; try discriminate.
    destruct (at_get h K_NCOLS) as [d2| |]; cbn [obind] in E; try discriminate. destruct (f_int d2) as [cols| |]; cbn [obind] in E; try discriminate.
    destruct (r_is2d r); [rewrite PE in E; injection E as <- <-; auto|].
    destruct (if isnull (r_pos r) || isnull (r_posidx r) then _ else _) as [buf| |]; cbn [obind] in E; try discriminate.
    rewrite ME in E. unfold WriteSingleGeotiff in E.
    destruct (at_get h K_NROWS) as [e1| |]; cbn [obind] in E; try discriminate. destruct (f_int e1) as [rows1| |]; cbn [obind] in E; try discriminate.
    destruct (at_get h K_NCOLS) as [e2| |]; cbn [obind] in E; try discriminate. destruct (f_int e2) as [cols1| |]; cbn [obind] in E; try discriminate.
    destruct (at_get h K_NODATA) as [e3| |]; cbn [obind] in E; try discriminate. destruct (imul cols1 rows1) as [n| |]; cbn [obind] in E; try discriminate.
    destruct (output_array _ _ _ _ _ _ _ _) as [[[[[t arr] nd'] sg]|]| |]; cbn [obind] in E; try discriminate; [|injection E as <- <-; auto].
    cbn [negb orb] in E. injection E as <- <-. auto.
  - unfold out_asc. destruct (OutputAscFile _ _ _ _ _ _ _ _ _ _) as [[[r1 ok1] fs]| |] eqn:E; cbn [obind fst snd]; try discriminate. intros [= <- <- <-].
    unfold OutputAscFile in E. cbv zeta in E. rewrite RE in E.
    match type of E with (let* rp := ?m in _) = _ => destruct m as [[r2 pos]| |] end; cbn [obind fst snd] in E; try discriminate.
    destruct (at_get h K_NROWS) as [d1| |]; cbn [obind] in E; try discriminate. destruct (f_int d1) as [rows| |]; cbn [obind] in E; try discriminate.
    destruct (at_get h K_NCOLS) as [d2| |]; cbn [obind] in E; try discriminate. destruct (f_int d2) as [cols| |]; cbn [obind] in E; try discriminate.
    destruct (r_is2d r2); [rewrite PE in E; injection E as <- <- <-; auto|]. rewrite OE in E. cbn [WriteAscHeaders negb obind] in E. injection E as <- <- <-. auto.
Qed.
End Names.

(** The values of one layer of a full array, and the files of all layers. *)
Lemma take_layer_ok full fsize lyrs ilyr tmp vs : Z.of_nat (List.length tmp) = fsize -> take_layer full fsize lyrs ilyr tmp = Ok vs ->
  List.length vs = List.length tmp /\ forall g, 0 <= g < fsize -> nth_error vs (Z.to_nat g) = nth_error full (Z.to_nat (g * lyrs + ilyr)).
Proof.
  intros L. unfold take_layer.
  assert (Q : forall m, 0 <= m -> m <= fsize -> forall vs, ofold (fun a gi => let* v := aget full (gi * lyrs + ilyr) in aset a gi v) (zseq m) tmp = Ok vs ->
    List.length vs = List.length tmp /\ forall g, 0 <= g < m -> nth_error vs (Z.to_nat g) = nth_error full (Z.to_nat (g * lyrs + ilyr))).
  { intros m M. pattern m. apply natlike_ind; [intros _ w H; injection H as <-; split; [reflexivity|lia]| |exact M]. intros k K IH LE w.
    change (Z.succ k) with (k + 1). rewrite zseq_S by lia. rewrite ofold_app.
    destruct (ofold _ (zseq k) tmp) as [u| |] eqn:E; cbn [obind]; try discriminate. destruct (IH ltac:(lia) u eq_refl) as [LU U]. cbn [ofold].
    destruct (aget full (k * lyrs + ilyr)) as [v| |] eqn:EV; cbn [obind]; try discriminate. apply aget_inv in EV as [_ EV].
    rewrite aset_ok by lia. cbn [obind]. intros H. injection H as <-. rewrite upd_length. split; [exact LU|]. intros g G. rewrite upd_nth.
    destruct (Nat.eqb_spec (Z.to_nat g) (Z.to_nat k)) as [X|X].
    - assert (g = k) by lia. subst g. replace (Z.to_nat k <? List.length u)%nat with true by lia. cbn [andb]. symmetry. exact EV.
    - cbn [andb]. apply U. lia. }
  apply Q; lia.
Qed.

Lemma fullsize_layers gdal g35 g37 s ord opened made moved o h opts arr fsize lyrs nv f files : 0 <= fsize -> 2 <= lyrs ->
  OutputFullsizeToFiles gdal g35 g37 s ord opened made moved o h opts (Some arr) fsize lyrs nv f = Ok (true, files) ->
  Z.of_nat (List.length files) = lyrs /\ forall k, 0 <= k < lyrs -> exists vs nf, nth_error files (Z.to_nat k) = Some nf /\
    Z.of_nat (List.length vs) = fsize /\ (forall g, 0 <= g < fsize -> nth_error vs (Z.to_nat g) = nth_error arr (Z.to_nat (g * lyrs + k))) /\
    WriteRasterToFile gdal g35 g37 s ord opened made moved o h opts (Some vs) (AppendCoreFileName o f (itoa (k + 1)) "_") = Ok (Some nf).
Proof.
  intros FS L. unfold OutputFullsizeToFiles. replace (lyrs <? 1) with false by lia. replace (lyrs =? 1) with false by lia.
  match goal with |- context [ofold ?F _ _] => set (step := F) end.
  destruct (ofold step (zseq lyrs) _) as [[[go fs] buf]| |] eqn:E; cbn [obind]; try discriminate. cbn [fst]. intros [= -> ->].
  assert (Q : forall m, 0 <= m -> forall go fs buf, ofold step (zseq m) (true, [], repeat nv (Z.to_nat fsize)) = Ok (go, fs, buf) ->
    Z.of_nat (List.length buf) = fsize /\ (go = true -> Z.of_nat (List.length fs) = m /\ forall k, 0 <= k < m -> exists vs nf, nth_error fs (Z.to_nat k) = Some nf /\
    Z.of_nat (List.length vs) = fsize /\ (forall g, 0 <= g < fsize -> nth_error vs (Z.to_nat g) = nth_error arr (Z.to_nat (g * lyrs + k))) /\
    WriteRasterToFile gdal g35 g37 s ord opened made moved o h opts (Some vs) (AppendCoreFileName o f (itoa (k + 1)) "_") = Ok (Some nf))).
  { clear E. intros m M. pattern m. apply natlike_ind; [| |exact M].
    - intros go fs b H. injection H as <- <- <-. rewrite repeat_length. split; [lia|]. intros _. split; [reflexivity|lia].
    - intros k K IH go fs b. change (Z.succ k) with (k + 1). rewrite zseq_S by lia. rewrite ofold_app.
      destruct (ofold step (zseq k) _) as [[[go1 fs1] b1]| |] eqn:E1; cbn [obind]; try discriminate. destruct (IH _ _ _ eq_refl) as [LB ST]. cbn [ofold].
      unfold step at 1. destruct (take_layer arr fsize lyrs k b1) as [vs| |] eqn:ET; cbn [obind]; try discriminate.
      destruct (take_layer_ok _ _ _ _ _ _ LB ET) as [LV V]. destruct go1.
      + destruct (WriteRasterToFile _ _ _ _ _ _ _ _ _ _ _ _ _) as [[nf|]| |] eqn:EW; cbn [obind]; try discriminate; intros H; injection H as <- <- <-; (split; [lia|]); [|discriminate].
        intros _. destruct (ST eq_refl) as [LF F]. rewrite app_length. cbn [List.length]. split; [lia|]. intros j J. destruct (Z.eq_dec j k) as [->|NE].
        * exists vs, nf. rewrite nth_error_app2 by lia. replace (Z.to_nat k - List.length fs1)%nat with 0%nat by lia. split; [reflexivity|]. split; [lia|]. auto.
        * destruct (F j ltac:(lia)) as (vs' & nf' & N & R). exists vs', nf'. rewrite nth_error_app1 by lia. auto.
      + intros H; injection H as <- <- <-. split; [lia|discriminate]. }
  exact (proj2 (Q lyrs ltac:(lia) _ _ _ E) eq_refl).
Qed.
