(** C53 key-value options, C54 configuration file on the command line, C72
    options of the command line and of the configuration file, C73 data formats. *)
From Coq Require Import ZArith Ascii String List Bool Lia.
From Verif Require Import Base StrModel StrSpec StrProofs MapModel MapProofs SubsetModel SubsetProofs RasterModel AppModel AppSpec AppProofs.
Import ListNotations.
Open Scope Z_scope.

(** C53. Entries [k:v1|v2|...] with 32-bit keys and values that [strtod] reads
    to the end: the map holds the values of the first entry for each key and
    nothing else. *)
Theorem C53_entries : forall V (strtod : bytes -> V * nat) (es : list (Z * list bytes)),
  es <> [] ->
  (forall k vs, In (k, vs) es -> in_int k /\ vs <> [] /\
     forall v, In v vs -> v <> [] /\ ~ In ","%char v /\ ~ In ":"%char v /\ ~ In "|"%char v /\ snd (strtod v) = length v) ->
  exists m, parse_key_values strtod (join "," (map entry_text es)) = (m, true) /\
    forall k, zfind m k = option_map (map (fun v => fst (strtod v))) (first_for Z.eqb k es).
Proof.
  intros V strtod es N H. destruct (parse_entries strtod es N) as (m & E & _ & G).
  - apply Forall_forall. intros [k vs] HI. destruct (H k vs HI) as (H1 & H2 & H3). split; [exact H1|]. split; [exact H2|]. apply Forall_forall. exact H3.
  - exists m. auto.
Qed.
Print Assumptions C53_entries.

(** Entries without a colon are passed over in silence. *)
Theorem C53_skipped : forall V (strtod : bytes -> V * nat) a e b,
  ~ In ":"%char e -> ~ In ","%char e -> e <> [] -> a ++ b <> [] ->
  Forall (fun x => x <> [] /\ ~ In ","%char x) (a ++ b) ->
  parse_key_values strtod (join "," (a ++ e :: b)) = parse_key_values strtod (join "," (a ++ b)).
Proof. exact @parse_skip. Qed.
Print Assumptions C53_skipped.

(** So are entries whose key is no 32-bit integer. *)
Theorem C53_bad_key : forall V (strtod : bytes -> V * nat) a k v b,
  ~ In ":"%char k -> ~ In ","%char k -> (forall z, canonical k z -> ~ in_int z) -> ~ In ":"%char v -> ~ In ","%char v -> v <> [] ->
  a ++ b <> [] -> Forall (fun x => x <> [] /\ ~ In ","%char x) (a ++ b) ->
  parse_key_values strtod (join "," (a ++ (k ++ ":"%char :: v) :: b)) = parse_key_values strtod (join "," (a ++ b)).
Proof.
  intros V strtod a k v b KC KK KZ VC VK VN N HF.
  assert (B : snd (IsInt k) = false).
  { destruct (IsInt k) as [z ok] eqn:E. destruct ok; [|reflexivity]. apply IsInt_char in E. destruct E as [E1 E2]. destruct (KZ z E1 E2). }
  rewrite !parse_fold; [|exact N|exact HF|destruct a; discriminate|].
  - rewrite !fold_left_app. cbn [fold_left]. rewrite kv_bad_key by assumption. reflexivity.
  - apply Forall_app in HF. apply Forall_app. split; [tauto|]. constructor; [|tauto]. split; [destruct k; discriminate|].
    rewrite in_app_iff. intros [H|[H|H]]; [contradiction|discriminate|contradiction].
Qed.
Print Assumptions C53_bad_key.

(** An entry with a value that is no number is left out and the call reports
    failure; the other entries are kept. *)
Theorem C53_bad_value : forall V (strtod : bytes -> V * nat) a k vs b,
  in_int k -> vs <> [] -> Forall (fun v => v <> [] /\ ~ In ","%char v /\ ~ In ":"%char v /\ ~ In "|"%char v) vs ->
  (exists s, In s vs /\ snd (strtod s) <> length s) ->
  a ++ b <> [] -> Forall (fun x => x <> [] /\ ~ In ","%char x) (a ++ b) ->
  parse_key_values strtod (join "," (a ++ entry_text (k, vs) :: b)) = (fst (parse_key_values strtod (join "," (a ++ b))), false).
Proof.
  intros V strtod a k vs b HI N HV B NE HF.
  rewrite !parse_fold; [|exact NE|exact HF|destruct a; discriminate|].
  - rewrite !fold_left_app. cbn [fold_left]. rewrite (kv_bad_value strtod _ k vs HI N); [|eapply Forall_impl; [|exact HV]; cbn; tauto|exact B].
    match goal with |- context [fst ?x] => generalize x end. intros [m f]. cbn [fst]. exact (eq_trans (kv_flag strtod b m false) (f_equal (fun x => (x, false)) (eq_sym (f_equal fst (kv_flag strtod b m f))))).
  - apply Forall_app in HF. apply Forall_app. split; [tauto|]. constructor; [|tauto]. split; [unfold entry_text; cbn [fst snd]; destruct (itoa k); discriminate|].
    unfold entry_text. rewrite in_app_iff. intros [H|[H|H]]; [revert H; apply not_in_itoa; [reflexivity|discriminate]|discriminate|].
    apply In_join in H. destruct H as [H|(x & Hx & Hc)]; [discriminate|]. rewrite Forall_forall in HV. pose proof (HV x Hx). tauto.
Qed.
Print Assumptions C53_bad_value.

(** A value [strtod] reads as digits only, for the examples. *)
Definition nat_strtod (s : bytes) : Z * nat := let (v, r) := strtol s in (v, (length s - length r)%nat).
Example C53_ex : parse_key_values nat_strtod (str "3:1|2,x,5:7,3:9") = ([(3, [1; 2]); (5, [7])], true) /\
  str "3:1|2,5:7,3:9" = join "," (map entry_text [(3, [str "1"; str "2"]); (5, [str "7"]); (3, [str "9"])]) /\
  (forall v, In v [str "1"; str "2"] -> v <> [] /\ ~ In ","%char v /\ ~ In ":"%char v /\ ~ In "|"%char v /\ snd (nat_strtod v) = length v).
Proof.
  split; [vm_compute; reflexivity|]. split; [vm_compute; reflexivity|].
  intros v [<-|[<-|[]]]; vm_compute; intuition discriminate.
Qed.
(** A bad value makes it report failure, yet the other entries are kept; an entry
    with nothing between colons maps its key to no value. *)
Example C53_bad : parse_key_values nat_strtod (str "x3:1,5:7") = ([(5, [7])], true) /\
  parse_key_values nat_strtod (str "3:1|z,5:7") = ([(5, [7])], false) /\
  parse_key_values nat_strtod (str "5::") = ([(5, [])], true).
Proof. vm_compute. repeat split. Qed.

(** C54. On a command line without the word -configfile no file is read,
    whatever the disk holds ... *)
Theorem C54_never_read : forall V (strtod : bytes -> V * nat) argv load1 load2,
  Forall (fun a => StringMatch a config_word = false) (skipn 1 argv) ->
  start strtod load1 argv = start strtod load2 argv.
Proof.
  intros V strtod argv load1 load2 H. unfold start, collect_args.
  destruct (Z.of_nat (length argv) <? 2); [reflexivity|].
  destruct (scan_no_config strtod (skipn 1 argv) H 1%nat [] []) as (seps & ->). cbn [obind fst snd].
  destruct (seps ++ [length argv]) eqn:E; [destruct seps; discriminate|]. reflexivity.
Qed.
Print Assumptions C54_never_read.

(** ... so the documented call with a single file name starts with no option and
    no data item, and ends with success having done nothing. *)
Theorem C54_single_argument : forall V (strtod : bytes -> V * nat) load app path,
  (forall t, path <> "-"%char :: t) -> start strtod load [app; path] = Ok (Run [] []).
Proof.
  intros V strtod load app path H. unfold start, collect_args. change (Z.of_nat (length [app; path]) <? 2) with false. cbv iota.
  cbn [skipn scan_args]. rewrite (dash_false path H). cbn [negb obind fst snd Datatypes.app length combine fold_left]. reflexivity.
Qed.
Print Assumptions C54_single_argument.

(** The word as the last argument makes the program read through a null pointer. *)
Theorem C54_last_argument : forall V (strtod : bytes -> V * nat) load app args w,
  Forall (fun a => StringMatch a config_word = false) args -> StringMatch w config_word = true ->
  start strtod load (app :: args ++ [w]) = UB.
Proof.
  intros V strtod load app args w HA HW. unfold start, collect_args.
  replace (Z.of_nat (length (app :: args ++ [w])) <? 2) with false by (symmetry; apply Z.ltb_ge; cbn [length]; rewrite app_length; cbn [length]; lia).
  cbn [skipn]. rewrite (scan_last strtod args w HA HW); [reflexivity|].
  apply StringMatch_iff in HW. inversion HW as [|c d w' t S F E1 E2]; subst. cbn [dash]. apply beqb_true.
  f_equal. destruct S as [->|[[S1 S2]|[S1 S2]]]; [reflexivity| |].
  - change (code "-") with 45 in S2. lia.
  - change (code "-") with 45 in S1. lia.
Qed.
Print Assumptions C54_last_argument.

Theorem C54_refuted : exists load app path,
  load path = Some (Some [str "-mode	MASK"]) /\
  start nat_strtod load [app; path] <> start nat_strtod load [app; config_word; path].
Proof. exists (fun _ => Some (Some [str "-mode	MASK"])), (str "mask_rasterio"), (str "/c.txt"). split; [reflexivity|]. vm_compute. discriminate. Qed.
Print Assumptions C54_refuted.

Example C54_ex : start nat_strtod (fun _ => Some (Some [str "-mode	MASK"])) [str "mask_rasterio"; config_word; str "/c.txt"] = Ok (Run [(str "MODE", [str "MASK"])] []) /\
  Forall (fun a => StringMatch a config_word = false) [str "-in"; str "a.tif"; str "-default"; str "-3"].
Proof. split; [vm_compute; reflexivity|]. repeat constructor. Qed.

(** C72. The options in force: the first value given for a name on the command
    line, else the first in the configuration file; names count up to case. Data
    items come from the file in its order. *)
Theorem C72_options : forall V (strtod : bytes -> V * nat) load app gs lines ms,
  (forall (k : bytes) (vs : list bytes), In (k, vs) gs ->
     snd (strtod ("-"%char :: k)) <> length ("-"%char :: k) /\
     (forall v, In v vs -> (forall t, v <> "-"%char :: t) \/ (snd (strtod v) = length v /\ StringMatch v config_word = false)) /\
     (is_config (k, vs) = true -> exists p t, vs = p :: t /\ forall t, p <> "-"%char :: t)) ->
  chosen gs <> [] -> load (chosen gs) = Some (Some lines) -> Forall2 line_means lines ms ->
  exists keys, start strtod load (app :: cmd gs) = Ok (Run keys (config_items ms)) /\
    forall K, lookup keys K = first_for beqb K (given gs ++ config_given ms).
Proof.
  intros V strtod load app gs lines ms HG HC HL HM.
  assert (HF : Forall (group_ok strtod) gs).
  { apply Forall_forall. intros [k vs] HI. destruct (HG k vs HI) as (H1 & H2 & H3). split; [exact H1|]. split; [apply Forall_forall; exact H2|exact H3]. }
  assert (N : gs <> []) by (intros ->; apply HC; reflexivity).
  destruct (collect_ok strtod app gs N HF) as (m & E & ->). unfold start. rewrite E. cbn [obind].
  destruct (chosen gs) as [|c p] eqn:EC; [congruence|]. rewrite HL.
  destruct (config_lines lines ms HM (fold_left put gs []) []) as (keys & E2 & G). exists keys. rewrite E2. cbn [fst snd Datatypes.app].
  split; [reflexivity|]. intros K. rewrite G, lookup_puts, first_for_app. reflexivity.
Qed.
Print Assumptions C72_options.

(** Without a configuration file: the command line alone. *)
Theorem C72_no_file : forall V (strtod : bytes -> V * nat) load app gs,
  gs <> [] ->
  (forall (k : bytes) (vs : list bytes), In (k, vs) gs ->
     snd (strtod ("-"%char :: k)) <> length ("-"%char :: k) /\
     (forall v, In v vs -> (forall t, v <> "-"%char :: t) \/ (snd (strtod v) = length v /\ StringMatch v config_word = false)) /\
     is_config (k, vs) = false) ->
  exists keys, start strtod load (app :: cmd gs) = Ok (Run keys []) /\ forall K, lookup keys K = first_for beqb K (given gs).
Proof.
  intros V strtod load app gs N HG.
  assert (HF : Forall (group_ok strtod) gs).
  { apply Forall_forall. intros [k vs] HI. destruct (HG k vs HI) as (H1 & H2 & H3). split; [exact H1|]. split; [apply Forall_forall; exact H2|intros X; exfalso; congruence]. }
  destruct (collect_ok strtod app gs N HF) as (m & E & ->). unfold start. rewrite E. cbn [obind].
  assert (EC : chosen gs = []).
  { unfold chosen. replace (filter is_config gs) with (@nil (bytes * list bytes)); [reflexivity|]. symmetry.
    clear - HG. induction gs as [|[k vs] gs IH]; [reflexivity|]. cbn [filter]. destruct (HG k vs (or_introl eq_refl)) as (_ & _ & ->). apply IH. intros; apply HG; right; auto. }
  rewrite EC. eexists. split; [reflexivity|]. intros K. rewrite lookup_puts. reflexivity.
Qed.
Print Assumptions C72_no_file.

(** A file that is missing or cannot be read ends the program. *)
Theorem C72_bad_file : forall V (strtod : bytes -> V * nat) load app path,
  snd (strtod config_word) <> length config_word -> path <> [] -> (forall t, path <> "-"%char :: t) ->
  (load path = None -> start strtod load [app; config_word; path] = Ok (Exit 2)) /\
  (load path = Some None -> start strtod load [app; config_word; path] = Ok (Exit 3)).
Proof.
  intros V strtod load app path HS HN HP.
  assert (HF : Forall (group_ok strtod) [(str "configfile", [path])]).
  { constructor; [|constructor]. split; [exact HS|]. split; [constructor; [left; exact HP|constructor]|]. intros _. exists path, []. auto. }
  destruct (collect_ok strtod app [(str "configfile", [path])] ltac:(discriminate) HF) as (m & E & ->).
  change (app :: cmd [(str "configfile", [path])]) with [app; config_word; path] in E.
  change (chosen [(str "configfile", [path])]) with path in E. unfold start. rewrite E. cbn [obind].
  destruct path as [|c p]; [congruence|]. split; intros ->; reflexivity.
Qed.
Print Assumptions C72_bad_file.

Example C72_ex :
  let gs := [(str "in", [str "a.tif"]); (str "default", [str "-3"]); (str "configfile", [str "/c.txt"])] in
  let lines := [str " -IN	b.tif"; str "# note"; str "-Thread	4	x"; str "in;out.tif"] in
  cmd gs = [str "-in"; str "a.tif"; str "-default"; str "-3"; str "-configfile"; str "/c.txt"] /\ chosen gs = str "/c.txt" /\
  Forall2 line_means lines [Opt (str "IN") [str "b.tif"]; Nothing; Opt (str "Thread") [str "4"; str "x"]; Item [str "in"; str "out.tif"]] /\
  start nat_strtod (fun _ => Some (Some lines)) (str "app" :: cmd gs) =
    Ok (Run [(str "IN", [str "a.tif"]); (str "DEFAULT", [str "-3"]); (str "THREAD", [str "4"; str "x"])] [[str "in"; str "out.tif"]]).
Proof.
  cbv zeta. split; [reflexivity|]. split; [vm_compute; reflexivity|]. split; [|vm_compute; reflexivity].
  constructor; [eapply LM_opt; vm_compute; try reflexivity; try (intuition discriminate); repeat constructor; intuition discriminate|].
  constructor; [eapply LM_note; vm_compute; reflexivity|].
  constructor; [eapply LM_opt; vm_compute; try reflexivity; try (intuition discriminate); repeat constructor; intuition discriminate|].
  constructor; [|constructor].
  eapply LM_item; [vm_compute; reflexivity| | | | | |]; vm_compute; try reflexivity; try (intuition discriminate); repeat constructor; intuition discriminate.
Qed.

(** C73. Input items whose paths all exist are files, whatever the format word
    says; other items are what the word says; a single unknown word is a file
    name if it has a slash, else a GridFS name. *)
Definition paths_of (strs : list bytes) (ps : list bytes) : Prop :=
  ps <> [] /\ last ps [] <> [] /\ Forall (fun p => ~ In ","%char p) ps /\
  (strs = [join "," ps] \/ exists w rest, strs = w :: join "," ps :: rest).
Theorem C73_existing : forall ex tag strs ps,
  paths_of strs ps -> StringMatch tag (str "OUT") = false -> Forall (fun p => ex p = true) ps ->
  parse_fmt_paths ex tag strs = Ok (Some (SFILE, ps)).
Proof.
  intros ex tag strs ps (N & L & F & H) HT HE.
  assert (X : FilesExist ex ps = true) by (destruct ps; [congruence|]; apply forallb_forall; rewrite Forall_forall in HE; exact HE).
  destruct H as [->|(w & rest & ->)]; unfold parse_fmt_paths; rewrite (split_join "," ps F N L), HT, X; reflexivity.
Qed.
Print Assumptions C73_existing.

Theorem C73_word : forall ex tag w rest ps,
  paths_of (w :: join "," ps :: rest) ps -> ~ Forall (fun p => ex p = true) ps \/ StringMatch tag (str "OUT") = true ->
  parse_fmt_paths ex tag (w :: join "," ps :: rest) =
  Ok (match StringToDataFormat w with UNKNOWNFMT => None | f => Some (f, ps) end).
Proof.
  intros ex tag w rest ps (N & L & F & _) H. unfold parse_fmt_paths. rewrite (split_join "," ps F N L).
  assert (X : negb (StringMatch tag (str "OUT")) && FilesExist ex ps = false).
  { destruct H as [H|H]; [|rewrite H; reflexivity]. apply andb_false_iff. right.
    destruct (FilesExist ex ps) eqn:E; [|reflexivity]. exfalso. apply H. apply Forall_forall. destruct ps; [congruence|]. apply forallb_forall. exact E. }
  rewrite X. destruct (StringToDataFormat w); reflexivity.
Qed.
Print Assumptions C73_word.

Theorem C73_single : forall ex tag p ps,
  paths_of [p] ps -> p = join "," ps -> ~ Forall (fun p => ex p = true) ps -> StringToDataFormat p = UNKNOWNFMT ->
  exists f, parse_fmt_paths ex tag [p] = Ok (Some (f, ps)) /\ (f = SFILE \/ f = GFS) /\ (f = SFILE <-> In "/"%char (hd [] ps)).
Proof.
  intros ex tag p ps (N & L & F & _) -> H HU. unfold parse_fmt_paths. rewrite (split_join "," ps F N L), HU. cbn [known_fmt].
  assert (X : FilesExist ex ps = false).
  { destruct (FilesExist ex ps) eqn:E; [|reflexivity]. exfalso. apply H. apply Forall_forall. destruct ps; [congruence|]. apply forallb_forall. exact E. }
  rewrite X, andb_false_r. destruct ps as [|q ps]; [congruence|]. cbn [hd].
  destruct (existsb (fun c => beqb [c] (str "/")) q) eqn:E.
  - exists SFILE. split; [reflexivity|]. split; [auto|]. split; [intros _|auto]. apply existsb_exists in E. destruct E as (c & Hc & E).
    apply beqb_true in E. injection E as ->. exact Hc.
  - exists GFS. split; [reflexivity|]. split; [auto|]. split; [discriminate|]. intros HI. exfalso.
    assert (X2 : existsb (fun c => beqb [c] (str "/")) q = true) by (apply existsb_exists; exists "/"%char; split; [exact HI|reflexivity]). congruence.
Qed.
Print Assumptions C73_single.

(** A single format word is also taken for the path; an empty item throws. *)
Theorem C73_refuted : forall tag,
  parse_fmt_paths (fun _ => false) tag [str "file"] = Ok (Some (SFILE, [str "file"])) /\
  parse_fmt_paths (fun _ => false) tag [[]] = Throw.
Proof. intros tag. unfold parse_fmt_paths. split; cbn -[StringMatch]; rewrite andb_false_r; vm_compute; reflexivity. Qed.
Print Assumptions C73_refuted.

Example C73_ex : paths_of [str "gfs"; str "a,b"] [str "a"; str "b"] /\
  parse_fmt_paths (fun _ => false) (str "IN") [str "GridFS"; str "a,b"] = Ok (Some (GFS, [str "a"; str "b"])) /\
  parse_fmt_paths (fun _ => false) (str "IN") [str "word"; str "a,b"] = Ok None /\
  parse_fmt_paths (fun _ => true) (str "IN") [str "gfs"; str "a,b"] = Ok (Some (SFILE, [str "a"; str "b"])).
Proof.
  split; [|vm_compute; auto]. split; [discriminate|]. split; [discriminate|]. split; [|right; exists (str "gfs"), []; reflexivity].
  repeat constructor; vm_compute; intuition discriminate.
Qed.
