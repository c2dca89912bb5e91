(** C110 data sets of the raster tool, C111 outputs given twice, C112 options
    without effect, C113 calls when masking and decomposing, C114 decomposing to
    files, C115 combining, C116 missing files, C117 formats with a database. *)
From Coq Require Import ZArith Ascii String List Bool Lia.
From Verif Require Import Base StrModel StrSpec StrProofs MapModel MapProofs FsModel BasicModel RasterModel SubsetModel AppModel AppSpec AppProofs AppProps ToolModel ToolSpec ToolProofs ToolProofs2 ToolProofs3 ToolProofs4 ToolProofs5 ToolProofs6 ToolProofs7 ToolProofs8 ToolProofs9.
Import ListNotations.
Open Scope Z_scope.
Open Scope outcome_scope.

(** ** C110. What the command line and the configuration file hand over: every
    key once, with a value, and no empty item. *)
Theorem C110_start : forall V (strtod : bytes -> V * nat) load argv keys its,
  start strtod load argv = Ok (Run keys its) -> keys_good keys /\ Forall (fun it => it <> []) its.
Proof. intros V strtod load argv keys its. apply start_good. Qed.
Print Assumptions C110_start.

(** With at most one of -out and -output, every data set is the one of the
    options or one of the items, in order, with the fields it was given. *)
Theorem C110_data_sets : forall V (strtod : bytes -> V * nat) nd o ex conn keys its v,
  NoDup (map fst keys) -> prepare strtod nd o ex conn keys its = Ok (Go v) ->
  lookup keys (str "OUT") = None \/ lookup keys (str "OUTPUT") = None ->
  exists first kept js, sublist kept its /\ Forall2 (says strtod nd (type_of keys)) kept js /\ holds v (first ++ js) /\
    match first with [] => True | [j] => options_say strtod nd o ex keys j | _ => False end /\
    (lookup keys (str "IN") = None -> lookup keys (str "INPUT") = None -> first = []).
Proof.
  intros V strtod nd o ex conn keys its v HN E HO.
  destruct (prepare_jobs strtod nd o ex conn keys its v HN E HO) as (first & kept & js & H1 & H2 & H3 & H4).
  exists first, kept, js. split; [exact H1|]. split; [exact H2|]. split; [exact H3|].
  split; [destruct first as [|j [|]]; [exact Logic.I|apply H4|contradiction]|].
  intros N1 N2. destruct first as [|j [|]]; [reflexivity| |contradiction].
  assert (S : options_say strtod nd o ex keys j) by apply H4.
  destruct S as ((vals & [X|X] & _) & _); congruence.
Qed.
Print Assumptions C110_data_sets.

(** ** C111. With -in, -out and -output, the output of each item goes to the
    path before it: inputs and outputs are off by one. *)
Theorem C111_shift_refuted : forall V (strtod : bytes -> V * nat) nd o ex conn keys its v li fi p0 ps v1 f1 p1 t1 v2 f2 p2 t2,
  NoDup (map fst keys) -> prepare strtod nd o ex conn keys its = Ok (Go v) ->
  lookup keys (str "IN") = Some li -> parse_fmt_paths ex (str "IN") li = Ok (Some (fi, p0 :: ps)) ->
  lookup keys (str "OUT") = Some v1 -> parse_fmt_paths ex (str "OUT") v1 = Ok (Some (f1, p1 :: t1)) ->
  lookup keys (str "OUTPUT") = Some v2 -> parse_fmt_paths ex (str "OUT") v2 = Ok (Some (f2, p2 :: t2)) ->
  exists ins kept, sublist kept its /\ v_ins v = ins :: map item_ins kept /\ v_outs v = p1 :: p2 :: map item_out kept.
Proof.
  intros V strtod nd o ex conn keys its v li fi p0 ps v1 f1 p1 t1 v2 f2 p2 t2 HN E L P L1 P1 L2 P2.
  apply (prepare_shift strtod nd o ex conn keys its v f1 p1 t1 f2 p2 t2 v1 v2); auto.
  unfold both. rewrite L. cbn [app flat_map]. unfold ins_of, parsed. rewrite P. discriminate.
Qed.
Print Assumptions C111_shift_refuted.

(** ** C112. -default, -nodata and -reclass do not reach the data items ... *)
Theorem C112_no_effect_refuted : forall V (strtod : bytes -> V * nat) nd o ex conn mask_ok files_ok gfs_ok mask_ids sub_ok k1 k2 its,
  NoDup (map fst k1) -> NoDup (map fst k2) -> Forall (accepted ex) k1 -> Forall (accepted ex) k2 -> Forall (fun it => it <> []) its ->
  agree_but ["DEFAULT"; "DEFAULTVALUE"; "NODATA"; "NODATAVALUE"; "RECLASS"]%string k1 k2 ->
  lookup k1 (str "IN") = None -> lookup k1 (str "INPUT") = None ->
  tool strtod nd o ex conn mask_ok files_ok gfs_ok mask_ids sub_ok k1 its = tool strtod nd o ex conn mask_ok files_ok gfs_ok mask_ids sub_ok k2 its.
Proof. intros. eapply no_effect; eauto. Qed.
Print Assumptions C112_no_effect_refuted.

(** ... and -outdatatype reaches those with a field for the type only. *)
Theorem C112_type_refuted : forall V (strtod : bytes -> V * nat) nd o ex conn mask_ok files_ok gfs_ok mask_ids sub_ok k1 k2 its,
  NoDup (map fst k1) -> NoDup (map fst k2) -> Forall (accepted ex) k1 -> Forall (accepted ex) k2 -> Forall (fun it => it <> []) its ->
  Forall (fun it => (length it <= 4)%nat) its ->
  agree_but ["DEFAULT"; "DEFAULTVALUE"; "NODATA"; "NODATAVALUE"; "RECLASS"; "OUTDATATYPE"]%string k1 k2 ->
  lookup k1 (str "IN") = None -> lookup k1 (str "INPUT") = None ->
  tool strtod nd o ex conn mask_ok files_ok gfs_ok mask_ids sub_ok k1 its = tool strtod nd o ex conn mask_ok files_ok gfs_ok mask_ids sub_ok k2 its.
Proof. intros. eapply no_effect; eauto. Qed.
Print Assumptions C112_type_refuted.

(** ** C113. Files in the modes that mask and decompose: the calls made. Items
    are passed over exactly when they are blank or a file of theirs is missing. *)
Theorem C113_calls : forall V (strtod : bytes -> V * nat) nd o ex conn mask_ok files_ok gfs_ok mask_ids sub_ok keys its,
  NoDup (map fst keys) -> Forall (accepted ex) keys -> Forall (fun it => it <> []) its ->
  lookup keys (str "MONGO") = None -> lookup keys (str "MONGODB") = None ->
  lookup keys (str "INPUT") = None -> lookup keys (str "OUTPUT") = None -> in_ready ex files_ok (masked_by ex keys) keys ->
  mode_of keys <> COM ->
  mask_of ex keys = None \/ (exists p, mask_of ex keys = Some p /\ mask_ok SFILE p = true) ->
  Forall (fun it => FilesExist ex (item_ins it) = true -> forall dv, files_ok (item_ins it) (masked_by ex keys) dv = Ok true) its ->
  exists first js, first_says strtod nd o ex keys first /\
    Forall2 (says strtod nd (type_of keys)) (filter (fun it => negb (blank it) && FilesExist ex (item_ins it)) its) js /\
    tool strtod nd o ex conn mask_ok files_ok gfs_ok mask_ids sub_ok keys its =
      Ok (open_calls (threads_of keys) (mode_of keys) (mask_of ex keys) ++
          flat_map (file_calls (mode_of keys) (masked_by ex keys)) (first ++ js) ++ close_calls (mask_of ex keys), 0).
Proof. intros. apply tool_files; assumption. Qed.
Print Assumptions C113_calls.

(** ** C114. Decomposing to files without a table: the only output asked for is
    that of the subsets' own data in one file ... *)
Theorem C114_calls_refuted : forall V (strtod : bytes -> V * nat) nd o ex conn mask_ok files_ok gfs_ok mask_ids sub_ok keys its,
  NoDup (map fst keys) -> Forall (accepted ex) keys -> Forall (fun it => it <> []) its ->
  lookup keys (str "MONGO") = None -> lookup keys (str "MONGODB") = None ->
  lookup keys (str "INPUT") = None -> lookup keys (str "OUTPUT") = None -> in_ready ex files_ok (masked_by ex keys) keys ->
  mode_of keys = DEC -> lookup keys (str "RECLASS") = None -> Forall (fun it => has_table strtod it = false) its ->
  mask_of ex keys = None \/ (exists p, mask_of ex keys = Some p /\ mask_ok SFILE p = true) ->
  Forall (fun it => FilesExist ex (item_ins it) = true -> forall dv, files_ok (item_ins it) (masked_by ex keys) dv = Ok true) its ->
  exists calls, tool strtod nd o ex conn mask_ok files_ok gfs_ok mask_ids sub_ok keys its = Ok (calls, 0) /\ Forall only_subset_output calls.
Proof.
  intros V strtod nd o ex conn mask_ok files_ok gfs_ok mask_ids sub_ok keys its HN HA HI M1 M2 NI NO IR MD NR NT MK RD.
  destruct (C113_calls V strtod nd o ex conn mask_ok files_ok gfs_ok mask_ids sub_ok keys its HN HA HI M1 M2 NI NO IR ltac:(congruence) MK RD) as (first & js & FS & F2 & E).
  eexists. split; [exact E|].
  assert (R : Forall (fun j => j_recls j = false) (first ++ js)).
  { apply Forall_app. split.
    - unfold first_says in FS. destruct (lookup keys (str "IN")), first as [|j [|]]; try contradiction; [|constructor].
      destruct FS as ((_ & _ & _ & _ & _ & _ & T) & _). rewrite NR in T. injection T as _ T. constructor; [exact T|constructor].
    - assert (NT' : Forall (fun it => has_table strtod it = false) (filter (fun it => negb (blank it) && FilesExist ex (item_ins it)) its)).
      { rewrite Forall_forall in *. intros x Hx. apply filter_In in Hx. apply NT, Hx. }
      clear -F2 NT'. induction F2 as [|it j l m S F IH]; [constructor|]. inversion NT'; subst. constructor; [|apply IH; assumption].
      destruct S as (_ & _ & _ & _ & _ & _ & T). apply (eq_trans (f_equal snd T)). assumption. }
  rewrite MD. apply Forall_app. split.
  { unfold open_calls. constructor; [exact Logic.I|]. destruct (mask_of ex keys); repeat constructor. }
  apply Forall_app. split; [|unfold close_calls; destruct (mask_of ex keys); repeat constructor].
  clear -R. induction R as [|j l R0 _ IH]; [constructor|]. cbn [flat_map]. apply Forall_app. split; [|exact IH].
  unfold file_calls. rewrite R0. destruct (j_upd j); repeat constructor.
Qed.
Print Assumptions C114_calls_refuted.

(** ... which writes no file and reports failure when the subsets hold no data of
    their own, and those built from the cells hold none; the tool does not look at
    the answer. [OutFile p false] is [OutputSubsetToFile(false, true, p)]
    (data_raster.hpp:2855). *)
Theorem C114_nothing_refuted : forall (T D : Type) (feq : T -> T -> bool) (toint : T -> option Z) (toD : T -> D) (ofD : D -> outcome T) (feqD : D -> D -> bool) (dNODATA : D) write_ok
  ord (r0 r' r : raster T) groups (subs : list (Z * subset D)) b dv default,
  BuildSubSet feq toint ord r0 [] groups = Ok (r', subs, b) ->
  OutputSubsetToFile feqD toint toD ofD dNODATA write_ok r dv subs false true [] default = Ok ([], false).
Proof. intros. eapply no_data_no_file; [eapply built_empty; eassumption|reflexivity]. Qed.
Print Assumptions C114_nothing_refuted.

(** ** C115. Combining files by the subsets of the mask: the calls made. *)
Theorem C115_calls : forall V (strtod : bytes -> V * nat) nd o ex conn mask_ok files_ok gfs_ok mask_ids sub_ok keys its p,
  NoDup (map fst keys) -> Forall (accepted ex) keys -> Forall (fun it => it <> []) its ->
  lookup keys (str "MONGO") = None -> lookup keys (str "MONGODB") = None ->
  lookup keys (str "INPUT") = None -> lookup keys (str "OUTPUT") = None ->
  match lookup keys (str "IN") with
  | Some l => exists ps, parse_fmt_paths ex (str "IN") l = Ok (Some (SFILE, ps)) /\ FilesExist ex ps = true
  | None => True
  end ->
  mode_of keys = COM -> mask_of ex keys = Some p -> mask_ok SFILE p = true ->
  Forall (fun it => has_table strtod it = false) its -> (forall q, exists b, sub_ok q = Ok b) ->
  exists first js, first_says strtod nd o ex keys first /\
    Forall2 (says strtod nd (type_of keys)) (filter (fun it => negb (blank it) && FilesExist ex (item_ins it)) its) js /\
    tool strtod nd o ex conn mask_ok files_ok gfs_ok mask_ids sub_ok keys its =
      Ok (open_calls (threads_of keys) COM (Some p) ++
          flat_map (com_calls o mask_ids (fun q => match sub_ok q with Ok b => b | _ => false end)) (first ++ js) ++ [DeleteMask], 0).
Proof. intros. apply tool_com; assumption. Qed.
Print Assumptions C115_calls.

(** Without a mask nothing is combined, and the program says so. *)
Theorem C115_no_mask : forall V (strtod : bytes -> V * nat) nd o ex conn mask_ok files_ok gfs_ok mask_ids sub_ok keys its l ps,
  NoDup (map fst keys) -> Forall (accepted ex) keys -> Forall (fun it => it <> []) its ->
  lookup keys (str "MONGO") = None -> lookup keys (str "MONGODB") = None ->
  lookup keys (str "INPUT") = None -> lookup keys (str "OUTPUT") = None ->
  lookup keys (str "IN") = Some l -> parse_fmt_paths ex (str "IN") l = Ok (Some (SFILE, ps)) -> FilesExist ex ps = true ->
  mode_of keys = COM -> mask_of ex keys = None ->
  tool strtod nd o ex conn mask_ok files_ok gfs_ok mask_ids sub_ok keys its = Ok ([SetThreads (threads_of keys)], 1).
Proof. intros. eapply com_without_mask; eassumption. Qed.
Print Assumptions C115_no_mask.

(** ** C116. A mask that does not exist counts as none (so C113 holds with every
    raster read unmasked and the return value 0) ... *)
Theorem C116_mask_refuted : forall ex (keys : smap (list bytes)) (m : bytes),
  lookup keys (str "MASK") = Some [m] -> m <> [] -> ~ In ","%char m -> ex m = false -> mask_of ex keys = None /\ masked_by ex keys = false.
Proof. intros ex keys m L N C E. pose proof (mask_missing ex keys m L N C E) as H. unfold masked_by. rewrite H. auto. Qed.
Print Assumptions C116_mask_refuted.

(** ... an input that does not exist is passed over: nothing is read or written
    and the return value is 0 ... *)
Theorem C116_input_refuted : forall V (strtod : bytes -> V * nat) nd o ex conn mask_ok files_ok gfs_ok mask_ids sub_ok (keys : smap (list bytes)) (a : bytes),
  NoDup (map fst keys) -> Forall (accepted ex) keys ->
  lookup keys (str "MONGO") = None -> lookup keys (str "MONGODB") = None ->
  lookup keys (str "INPUT") = None -> lookup keys (str "OUTPUT") = None ->
  lookup keys (str "IN") = Some [a] -> a <> [] -> ~ In ","%char a -> ex a = false -> mode_of keys <> COM ->
  mask_of ex keys = None \/ (exists p, mask_of ex keys = Some p /\ mask_ok SFILE p = true) ->
  tool strtod nd o ex conn mask_ok files_ok gfs_ok mask_ids sub_ok keys [] =
    Ok (open_calls (threads_of keys) (mode_of keys) (mask_of ex keys) ++ close_calls (mask_of ex keys), 0).
Proof. intros. eapply missing_input; eassumption. Qed.
Print Assumptions C116_input_refuted.

(** ... and one that exists but cannot be read is used through a null pointer. *)
Theorem C116_unreadable_refuted : forall V (strtod : bytes -> V * nat) nd o ex conn mask_ok files_ok gfs_ok mask_ids sub_ok (keys : smap (list bytes)) (a : bytes) its,
  NoDup (map fst keys) -> Forall (accepted ex) keys -> Forall (fun it => it <> []) its ->
  lookup keys (str "MONGO") = None -> lookup keys (str "MONGODB") = None ->
  lookup keys (str "INPUT") = None -> lookup keys (str "OUTPUT") = None ->
  lookup keys (str "IN") = Some [a] -> a <> [] -> ~ In ","%char a -> ex a = true -> mode_of keys <> COM ->
  mask_of ex keys = None \/ (exists p, mask_of ex keys = Some p /\ mask_ok SFILE p = true) ->
  (forall dv, files_ok [a] (masked_by ex keys) dv = Ok false) ->
  tool strtod nd o ex conn mask_ok files_ok gfs_ok mask_ids sub_ok keys its = UB.
Proof. intros. eapply unreadable_input; eassumption. Qed.
Print Assumptions C116_unreadable_refuted.

(** ** C117. With a database and no -in the first item decides where all items
    are read from: if its files are missing, all are read from GridFS, also those
    whose files exist; *)
Lemma with_database : forall V (strtod : bytes -> V * nat) nd o ex conn keys it l v vals,
  NoDup (map fst keys) -> prepare strtod nd o ex conn keys (it :: l) = Ok (Go v) ->
  lookup keys (str "MONGO") = Some vals -> lookup keys (str "MONGODB") = None -> conn (firstn 4 vals) = Some true ->
  lookup keys (str "IN") = None -> lookup keys (str "INPUT") = None -> lookup keys (str "OUT") = None \/ lookup keys (str "OUTPUT") = None ->
  exists v1, items strtod nd ex v1 (it :: l) = Ok v /\ v_infmt v1 = UNKNOWNFMT /\ v_mongo v1 = true /\ holds v1 [] /\ v_type v1 = type_of keys.
Proof.
  intros V strtod nd o ex conn keys it l v vals HN E M1 M2 CN N1 N2 HO.
  destruct (prepare_first strtod nd o ex conn keys (it :: l) v HN E HO) as (v0 & v1 & first & E0 & SG & I1 & _ & EI & HF & TY & MF).
  pose proof (vars_of_keys strtod nd ex conn keys HN v0 E0) as (_ & W2 & _ & W4 & _).
  unfold both in W2, W4. rewrite M1, M2 in W2. rewrite N1, N2 in W4. cbn [opt_list app fold_left] in W2, W4. rewrite CN in W2. cbn [or_else] in W2.
  exists v1. split; [exact EI|]. split; [congruence|]. split; [unfold same_globals in SG; intuition congruence|]. split; [|exact TY].
  destruct first as [|j [|]]; [exact HF| |contradiction].
  destruct MF as (((vs & [X|X] & _) & _) & _); congruence.
Qed.
Lemma appended_nil {V} (v v' : vars V) js : holds v [] -> appended v v' js -> holds v' js.
Proof.
  unfold holds, appended. cbn [map]. intros (H1 & H2 & H3 & H4 & H5 & H6 & H7 & H8 & H9 & H10).
  rewrite H1, H2, H3, H4, H5, H6, H7, H8, H9, H10. cbn [app]. auto.
Qed.

Theorem C117_gridfs_refuted : forall V (strtod : bytes -> V * nat) nd o ex conn keys it l v vals,
  NoDup (map fst keys) -> prepare strtod nd o ex conn keys (it :: l) = Ok (Go v) ->
  lookup keys (str "MONGO") = Some vals -> lookup keys (str "MONGODB") = None -> conn (firstn 4 vals) = Some true ->
  lookup keys (str "IN") = None -> lookup keys (str "INPUT") = None -> lookup keys (str "OUT") = None \/ lookup keys (str "OUTPUT") = None ->
  blank it = false -> item_ins it <> [] -> FilesExist ex (item_ins it) = false ->
  exists js, holds v js /\
    Forall2 (fun it j => says strtod nd (type_of keys) it j /\ j_infmt j = GFS) (filter (fun it => negb (blank it)) (it :: l)) js.
Proof.
  intros V strtod nd o ex conn keys it l v vals HN E M1 M2 CN N1 N2 HO B I F.
  destruct (with_database V strtod nd o ex conn keys it l v vals HN E M1 M2 CN N1 N2 HO) as (v1 & EI & U & M & H & T).
  destruct (items_first strtod nd ex it l v1 v EI U M B) as (js & A & _ & G). specialize (G F I).
  exists js. split; [exact (appended_nil _ _ _ H A)|]. rewrite T in G. eapply Forall2_impl'; [|exact G]. cbv beta. intros ? ? (X & Y & _). split; [exact X|exact Y].
Qed.
Print Assumptions C117_gridfs_refuted.

(** if they exist, items that name files of the database are dropped. *)
Theorem C117_files_refuted : forall V (strtod : bytes -> V * nat) nd o ex conn keys it l v vals,
  NoDup (map fst keys) -> prepare strtod nd o ex conn keys (it :: l) = Ok (Go v) ->
  lookup keys (str "MONGO") = Some vals -> lookup keys (str "MONGODB") = None -> conn (firstn 4 vals) = Some true ->
  lookup keys (str "IN") = None -> lookup keys (str "INPUT") = None -> lookup keys (str "OUT") = None \/ lookup keys (str "OUTPUT") = None ->
  blank it = false -> FilesExist ex (item_ins it) = true ->
  exists js, holds v js /\
    Forall2 (fun it j => says strtod nd (type_of keys) it j /\ j_infmt j <> GFS)
      (filter (fun it => negb (blank it) && (FilesExist ex (item_ins it) || has_table strtod it)) (it :: l)) js.
Proof.
  intros V strtod nd o ex conn keys it l v vals HN E M1 M2 CN N1 N2 HO B F.
  destruct (with_database V strtod nd o ex conn keys it l v vals HN E M1 M2 CN N1 N2 HO) as (v1 & EI & U & M & H & T).
  destruct (items_first strtod nd ex it l v1 v EI U M B) as (js & A & G & _). specialize (G F).
  exists js. split; [exact (appended_nil _ _ _ H A)|]. rewrite T in G. eapply Forall2_impl'; [|exact G]. cbv beta. intros ? ? (X & Y & _). split; [exact X|exact Y].
Qed.
Print Assumptions C117_files_refuted.

(** A world for the examples: files under /d exist. *)
Definition here (p : bytes) : bool := beqb (firstn 3 p) (str "/d/").
Definition plain_os : os := {| realpath := fun f => Some f; isdir := fun _ => false |}.
Definition ex_tool := tool nat_strtod (-9999) plain_os here (fun _ => None) (fun _ _ => true) (fun _ _ _ => Ok true) (fun _ _ _ => Ok true) [3; 7] (fun _ => Ok true).

(** C110: a command line and a file with two items; the second names no file. *)
Definition ex_lines : list bytes := [str "/d/x.asc,/d/y.asc;/d/xy.asc;5;-1;INT32"; str "/e/z.asc;/d/z.asc"].
Example C110_ex : exists keys its v,
  start nat_strtod (fun _ => Some (Some ex_lines)) [str "app"; str "-in"; str "/d/a.asc"; str "-out"; str "/d/o.asc"; str "-configfile"; str "/c"] = Ok (Run keys its) /\
  prepare nat_strtod (-9999) plain_os here (fun _ => None) keys its = Ok (Go v) /\ NoDup (map fst keys) /\ lookup keys (str "OUTPUT") = None /\
  length its = 2%nat /\
  holds v [mkJob SFILE [str "/d/a.asc"] SFILE (str "/d/o.asc") (-9999) false (-9999) RDT_Unknown false [];
           mkJob SFILE [str "/d/x.asc"; str "/d/y.asc"] SFILE (str "/d/xy.asc") 5 true (-1) RDT_Int32 false []].
Proof.
  eexists _, _, _. split; [vm_compute; reflexivity|]. split; [vm_compute; reflexivity|]. split; [|split; [reflexivity|split; [reflexivity|vm_compute; repeat split]]].
  cbn [map fst]. repeat (constructor; [vm_compute; intuition discriminate|]). constructor.
Qed.

(** C111: with -output as well, the item's output is where -output says, and its
    own output is not used. *)
Example C111_ex :
  let keys := [(str "IN", [str "/d/a.asc"]); (str "OUT", [str "/d/o1.asc"]); (str "OUTPUT", [str "/d/o2.asc"])] in
  exists t1 t2, ex_tool keys [[str "/d/x.asc"; str "/d/y.asc"]] =
    Ok ([SetThreads 1; InitFiles [str "/d/a.asc"] false (-9999); t1; OutFile (str "/d/o1.asc") true; Delete;
         InitFiles [str "/d/x.asc"] false (-9999); t2; OutFile (str "/d/o2.asc") true; Delete], 0).
Proof. eexists _, _. vm_compute. reflexivity. Qed.

(** C112: a default and a table for all items make no difference. *)
Example C112_ex :
  let k2 := [(str "DEFAULT", [str "5"]); (str "RECLASS", [str "1:2"]); (str "OUTDATATYPE", [str "INT32"])] in
  let its := [[str "/d/x.asc"; str "/d/y.asc"]] in
  NoDup (map fst k2) /\ Forall (accepted here) k2 /\ agree_but ["DEFAULT"; "DEFAULTVALUE"; "NODATA"; "NODATAVALUE"; "RECLASS"; "OUTDATATYPE"]%string [] k2 /\
  ex_tool k2 its = Ok ([SetThreads 1; InitFiles [str "/d/x.asc"] false (-9999); SetOutType RDT_Double; OutFile (str "/d/y.asc") true; Delete], 0).
Proof.
  cbv zeta. split; [cbn [map fst]; repeat (constructor; [vm_compute; intuition discriminate|]); constructor|].
  split; [repeat constructor; cbn [fst snd]; try discriminate; intuition discriminate|].
  split; [|vm_compute; reflexivity].
  intros k H. unfold lookup. cbn [find fst]. cbn [map In] in H.
  repeat match goal with |- context [beqb ?a k] => destruct (beqb a k) eqn:?; [exfalso; apply H; apply beqb_true in Heqb; subst; auto 10|clear Heqb]
    | |- context [beqb k ?a] => destruct (beqb k a) eqn:?; [exfalso; apply H; apply beqb_true in Heqb; subst; auto 10|clear Heqb] end.
  reflexivity.
Qed.

(** C113 and C114: decomposing and masking two data sets; the hypotheses hold. *)
Definition ex_keys (m : string) : smap (list bytes) := [(str "MODE", [str m]); (str "MASK", [str "/d/m.asc"]); (str "IN", [str "/d/a.asc"]); (str "THREAD", [str "4"])].
Lemma ex_keys_ok m : StringToIOMode (str m) <> UNKNOWNMODE -> NoDup (map fst (ex_keys m)) /\ Forall (accepted here) (ex_keys m).
Proof.
  intros H. split; [unfold ex_keys; cbn [map fst]; repeat (constructor; [vm_compute; intuition discriminate|]); constructor|].
  unfold ex_keys. repeat apply Forall_cons; try apply Forall_nil; unfold accepted; cbn [fst snd hd];
    (split; [discriminate|]); repeat split; intros E; try (destruct E as [E|E]); try (vm_compute in E; discriminate E); try exact H.
  - exists SFILE, (str "/d/m.asc"), []. vm_compute. reflexivity.
  - exists (SFILE, [str "/d/a.asc"]). vm_compute. reflexivity.
Qed.
Definition ex_items : list (list bytes) := [[str "/e/x.asc"; str "/d/y.asc"]; [str "/d/x.asc"; str "/d/y.asc"; str ""; str "-1"]].
Example C113_ex : in_ready here (fun _ _ (_ : Z) => Ok true) (masked_by here (ex_keys "MASKDEC")) (ex_keys "MASKDEC") /\
  mode_of (ex_keys "MASKDEC") = MASKDEC /\ mask_of here (ex_keys "MASKDEC") = Some (str "/d/m.asc") /\
  ex_tool (ex_keys "MASKDEC") ex_items =
    Ok ([SetThreads 4; InitMask SFILE (str "/d/m.asc"); MaskBuildSubset;
         InitFiles [str "/d/a.asc"] true (-9999); SetOutType RDT_Double; OutFile (str "/d/a_masked.asc") false; OutFile (str "/d/a_masked.asc") true; Delete;
         InitFiles [str "/d/x.asc"] true (-9999); SetOutType RDT_Double; ReplaceNoData (-1); OutFile (str "/d/y.asc") false; OutFile (str "/d/y.asc") true; Delete; DeleteMask], 0).
Proof.
  split; [exists [str "/d/a.asc"]; split; [vm_compute; reflexivity|split; [reflexivity|reflexivity]]|].
  split; [vm_compute; reflexivity|]. split; [vm_compute; reflexivity|]. vm_compute. reflexivity.
Qed.
Example C114_ex : mode_of (ex_keys "DEC") = DEC /\ Forall (fun it => has_table nat_strtod it = false) ex_items /\
  exists c1 c2 c3 c4, ex_tool (ex_keys "DEC") ex_items = Ok (c1 :: c2 :: c3 :: c4 :: SetOutType RDT_Double :: OutFile (str "/d/a_masked.asc") false :: Delete ::
    [InitFiles [str "/d/x.asc"] true (-9999); SetOutType RDT_Double; ReplaceNoData (-1); OutFile (str "/d/y.asc") false; Delete; DeleteMask], 0).
Proof. split; [vm_compute; reflexivity|]. split; [repeat constructor|]. eexists _, _, _, _. vm_compute. reflexivity. Qed.

(** C115: of three files one has no number and one the number of no subset. *)
Example C115_ex :
  let keys := [(str "MODE", [str "COM"]); (str "MASK", [str "/d/m.asc"])] in
  let its := [[str "/d/3_x.asc,/d/x.asc,/d/5_x.asc,/d/7_x.asc"; str "/d/x.asc"]] in
  ex_tool keys its = Ok ([SetThreads 1; InitMask SFILE (str "/d/m.asc"); MaskBuildSubset; MaskSetDefault (-9999); MaskUnusable;
    SubFromFile 3 (str "/d/3_x.asc"); SubFromFile 7 (str "/d/7_x.asc"); MaskSetOutType RDT_Double; MaskOutFile (str "/d/x.asc"); DeleteMask], 0) /\
  ex_tool [(str "MODE", [str "COM"]); (str "IN", [str "/d/3_x.asc"])] its = Ok ([SetThreads 1], 1).
Proof. cbv zeta. split; vm_compute; reflexivity. Qed.

(** C116: no mask, no input, no complaint; and a file that cannot be read. *)
Example C116_ex :
  ex_tool [(str "MASK", [str "/e/m.asc"]); (str "IN", [str "/d/a.asc"])] [] =
    Ok ([SetThreads 1; InitFiles [str "/d/a.asc"] false (-9999); SetOutType RDT_Double; OutFile (str "/d/a_masked.asc") true; Delete], 0) /\
  ex_tool [(str "MASK", [str "/d/m.asc"]); (str "IN", [str "/e/a.asc"])] [] = Ok ([SetThreads 1; InitMask SFILE (str "/d/m.asc"); DeleteMask], 0) /\
  tool nat_strtod (-9999) plain_os here (fun _ => None) (fun _ _ => true) (fun _ _ _ => Ok false) (fun _ _ _ => Ok true) [] (fun _ => Ok true)
    [(str "IN", [str "/d/a.asc"])] [] = UB.
Proof. split; [|split]; vm_compute; reflexivity. Qed.

(** C117: the order of two items decides what happens to each. *)
Example C117_ex :
  let keys := [(str "MONGO", [str "127.0.0.1"; str "27017"; str "db"; str "fs"])] in
  let t := tool nat_strtod (-9999) plain_os here (fun _ => Some true) (fun _ _ => true) (fun _ _ _ => Ok true) (fun _ _ _ => Ok true) [] (fun _ => Ok true) keys in
  let a := [str "/d/x.asc"; str "x"] in let b := [str "g"; str "y"] in
  (exists inc ty, t [a; b] = Ok ([SetThreads 1; InitFiles [str "/d/x.asc"] false (-9999); SetOutType RDT_Double; OutGfs (str "0_x") inc ty; Delete; Disconnect], 0)) /\
  (exists inc ty, t [b; a] = Ok ([SetThreads 1; InitGfs (str "g") false (-9999) inc ty; OutGfs (str "0_y") inc ty; Delete;
                               InitGfs (str "/d/x.asc") false (-9999) inc ty; OutGfs (str "0_x") inc ty; Delete; Disconnect], 0)).
Proof. cbv zeta. split; eexists _, _; vm_compute; reflexivity. Qed.
