(** C120 reading arrays from text, C121 what was written is not what is read,
    C122 missing, short and malformed texts. *)
From Coq Require Import ZArith Ascii String List Bool Lia.
From Verif Require Import Base StrModel StrSpec FloatModel NumModel TextModel TextSpec TextProofs.
Import ListNotations.
Open Scope Z_scope.

Lemma same_length {A B} {R : A -> B -> Prop} {l1 l2} : Forall2 R l1 l2 -> length l1 = length l2.
Proof. induction 1; cbn; congruence. Qed.

(** ** C120. A text made of a label, a count and that many elements, with any white
    space between them, reads as the array. *)
Theorem C120_1d : forall (T : Type) (get : stream -> stream * option T) label ts xs more file rows0,
  Forall2 (reads get) ts xs -> in_int (Z.of_nat (length xs)) ->
  Words file (label :: itoa (Z.of_nat (length xs)) :: ts ++ more) ->
  Read1DArrayFromTxtFile get (Some file) rows0 = Ok (Z.of_nat (length xs), map Some xs).
Proof. intros T get label ts xs more file rows0 F HI W. exact (read_1d_ok get ts xs file label more rows0 HI F W). Qed.
Print Assumptions C120_1d.

(** Each row of a table starts with its length, which becomes element 0. *)
Theorem C120_2d : forall (T : Type) (get : stream -> stream * option T) (of_int : Z -> T) label tss xss more text rows0,
  Forall2 (Forall2 (reads get)) tss xss -> in_int (Z.of_nat (length xss)) ->
  (forall xs, In xs xss -> Z.of_nat (length xs) < INT_MAX) ->
  Words text (label :: itoa (Z.of_nat (length xss)) :: flat_map (fun ts => itoa (Z.of_nat (length ts)) :: ts) tss ++ more) ->
  let result := Ok (Z.of_nat (length xss), map (fun xs => map Some (of_int (Z.of_nat (length xs)) :: xs)) xss) in
  Read2DArrayFromTxtFile get of_int (Some text) rows0 = result /\ Read2DArrayFromString get of_int text rows0 = result.
Proof.
  intros T get of_int label tss xss more text rows0 F HI L W result.
  assert (E : read_2d get of_int (text, true) rows0 = result); [|split; exact E].
  refine (read_2d_ok get of_int (map (fun ts => itoa (Z.of_nat (length ts)) :: ts) tss) xss text label more rows0 HI _ _).
  - clear W result. induction F as [|ts xs tss xss R F IH]; [constructor|]. cbn [map]. constructor.
    + exists ts. split; [|split; [exact R|apply L; left; reflexivity]].
      rewrite (same_length R). reflexivity.
    + apply IH; [|intros; apply L; right; assumption].
      cbn [length] in HI. unfold in_int, INT_MIN in *. lia.
  - rewrite <- flat_map_concat_map. exact W.
Qed.
Print Assumptions C120_2d.

(** Ints in decimal are such elements. *)
Theorem C120_int : forall z, in_int z -> reads get_int (itoa z) z.
Proof. exact get_int_reads. Qed.
Print Assumptions C120_int.

(** ** C121 (false). What the writers wrote is what the readers read. It never is:
    the readers take the first value as the label and the second as the count. *)
Theorem C121_1d_refuted : forall (T : Type) (get : stream -> stream * option T) (v : Z -> T),
  (forall z, Z.abs z < 1000000 -> reads get (itoa z) (v z)) -> stops get ->
  forall zs rows0 n, zs <> [] -> Forall (fun z => Z.abs z < 1000000) zs ->
  Read1DArrayFromTxtFile get (Some (Output1DArrayToTxtFile (map FloatModel.of_int zs))) rows0 <> Ok (n, map Some (map v zs)).
Proof.
  intros T get v HR HS zs rows0 n N F E. pose proof (written_1d zs F) as W. destruct zs as [|z0 [|z1 zs]]; [congruence| |].
  - rewrite (read_1d_none get HS) in E by (exists [itoa z0]; split; [exact W|cbn; lia]).
    destruct rows0 as [k|]; [|discriminate]. destruct (k <? 0); [discriminate|]. injection E as _ E.
    destruct (Z.to_nat k); discriminate.
  - inversion F as [|? ? _ F1]; subst. inversion F1 as [|? ? B1 F2]; subst. cbn [map] in W.
    unfold Read1DArrayFromTxtFile in E. cbn [open_stream] in E.
    destruct (get_rows_words _ _ _ _ rows0 (small_int z1 B1) W) as (r & E1 & W1). cbn [map] in E. rewrite E1 in E. cbn [obind] in E.
    destruct (z1 <? 0); [discriminate|]. injection E as _ E.
    assert (A : at_most (length zs) (r, true)) by (right; exists zs; auto).
    pose proof (at_most_many get v v HR HS (Z.to_nat z1) _ _ A) as M. destruct (get_many get (Z.to_nat z1) (r, true)) as [st l].
    cbn [snd] in E. destruct M as (_ & M & _). subst l.
    change (Some (v z0) :: Some (v z1) :: map Some (map v zs)) with (map Some (v z0 :: v z1 :: map v zs)) in M.
    rewrite set_count_some in M. cbn [length] in M. rewrite map_length in M. lia.
Qed.
Print Assumptions C121_1d_refuted.

(** Neither with the length of each row in front, as the reader gives them, nor
    without, when there are two columns or more. *)
Theorem C121_2d_refuted : forall (T : Type) (get : stream -> stream * option T) (of_int : Z -> T) (v : Z -> T),
  (forall z, Z.abs z < 1000000 -> reads get (itoa z) (v z)) -> stops get ->
  forall zss rows0 n, concat zss <> [] -> Forall (Forall (fun z => Z.abs z < 1000000)) zss ->
  let text := Output2DArrayToTxtFile (map (map FloatModel.of_int) zss) in
  Read2DArrayFromTxtFile get of_int (Some text) rows0 <>
    Ok (n, map (fun zs => map Some (of_int (Z.of_nat (length zs)) :: map v zs)) zss) /\
  (Forall (fun zs => 2 <= length zs)%nat zss ->
   Read2DArrayFromTxtFile get of_int (Some text) rows0 <> Ok (n, map (fun zs => map Some (map v zs)) zss)).
Proof.
  intros T get of_int v HR HS zss rows0 n N F text. pose proof (written_2d zss F) as W. fold text in W.
  assert (NN : zss <> []) by (intros ->; apply N; reflexivity).
  assert (G : forall l, l <> [] -> Read2DArrayFromTxtFile get of_int (Some text) rows0 = Ok (n, l) ->
    exists k st, at_most (length (concat zss) - 2) st /\ (2 <= length (concat zss))%nat /\ get_row get of_int k st None = Ok l).
  { intros l NL E. destruct (concat zss) as [|z0 [|z1 zs]] eqn:EC; [congruence| |].
    - rewrite (read_2d_none get of_int) in E by (exists [itoa z0]; split; [exact W|cbn; lia]).
      destruct rows0 as [k|]; [|discriminate]. destruct (k <? 0); [discriminate|]. destruct (k =? 0); [|discriminate].
      injection E as _ <-. congruence.
    - assert (FC : Forall (fun z => Z.abs z < 1000000) (z0 :: z1 :: zs)) by (rewrite <- EC; apply Forall_concat, F).
      inversion FC as [|? ? _ F1]; subst. inversion F1 as [|? ? B1 F2]; subst. cbn [map] in W.
      unfold Read2DArrayFromTxtFile, read_2d in E. cbn [open_stream] in E.
      destruct (get_rows_words _ _ _ _ rows0 (small_int z1 B1) W) as (r & E1 & W1). rewrite E1 in E. cbn [obind] in E.
      destruct (z1 <? 0); [discriminate|].
      destruct (get_row get of_int (Z.to_nat z1) (r, true) None) as [l'| |] eqn:ER; cbn [obind] in E; try discriminate.
      injection E as _ <-. exists (Z.to_nat z1), (r, true). split; [|split; [cbn [length]; lia|exact ER]].
      right. exists zs. cbn [length fst]. split; [exact W1|]. split; [exact F2|lia]. }
  assert (CL : length (concat (map (fun zs => map Some (map v zs)) zss)) = length (concat zss)).
  { clear. induction zss as [|zs zss IH]; [reflexivity|]. cbn [map concat].
    rewrite !app_length, IH, !map_length. reflexivity. }
  split.
  - intros E. apply G in E; [|destruct zss; [congruence|discriminate]]. destruct E as (k & st & A & L & E).
    destruct (at_most_rows get of_int v HR HS k _ _ _ A _ E) as [_ B].
    rewrite map_map in B. cbn [map tl] in B.
    assert (S : set_count (concat (map (fun zs => map Some (map v zs)) zss)) = length (concat zss)).
    { rewrite <- CL. clear. induction zss as [|zs zss IH]; [reflexivity|]. cbn [map concat].
      rewrite set_count_app, app_length, IH, set_count_some, !map_length. reflexivity. }
    lia.
  - intros F2 E. apply G in E; [|destruct zss; [congruence|discriminate]]. destruct E as (k & st & A & L & E).
    pose proof (at_most_full get of_int v HR HS k _ _ _ A _ E) as B.
    rewrite CL in B. enough (length (concat zss) <= length (concat zss) - 2)%nat by lia. apply B.
    intros row I. apply in_map_iff in I. destruct I as (zs & <- & I). rewrite set_count_some, !map_length. split; [|reflexivity].
    rewrite Forall_forall in F2. apply F2, I.
Qed.
Print Assumptions C121_2d_refuted.

(** ** C122 (false). A text that cannot be read, or is too short, or has wrong
    counts, is reported. A file that does not exist, or has one word or none, leaves
    the caller's count as it was, and as many elements unset. *)
Theorem C122_missing_refuted : forall (T : Type) (get : stream -> stream * option T) (of_int : Z -> T) file rows0, stops get ->
  match file with None => True | Some s => exists ws, Words s ws /\ (length ws <= 1)%nat end ->
  Read1DArrayFromTxtFile get file rows0 =
    match rows0 with Some k => if k <? 0 then Throw else Ok (k, repeat None (Z.to_nat k)) | None => UB end /\
  Read2DArrayFromTxtFile get of_int file rows0 =
    match rows0 with Some k => if k <? 0 then Throw else if k =? 0 then Ok (0, []) else UB | None => UB end.
Proof.
  intros T get of_int file rows0 HS H. split; [exact (read_1d_none get HS file rows0 H)|exact (read_2d_none get of_int file rows0 H)].
Qed.
Print Assumptions C122_missing_refuted.

(** With fewer elements than the count says, the others are unset; missing rows get
    the length of the last row and unset elements. *)
Theorem C122_short_refuted : forall (T : Type) (get : stream -> stream * option T) label ts xs k file rows0, stops get ->
  Forall2 (reads get) ts xs -> in_int k -> Z.of_nat (length xs) <= k -> Words file (label :: itoa k :: ts) ->
  Read1DArrayFromTxtFile get (Some file) rows0 = Ok (k, map Some xs ++ repeat None (Z.to_nat k - length xs)).
Proof. intros T get label ts xs k file rows0 HS F HI L W. exact (read_1d_short get HS ts xs file label k rows0 HI F L W). Qed.
Print Assumptions C122_short_refuted.

Theorem C122_rows_refuted : forall (T : Type) (get : stream -> stream * option T) (of_int : Z -> T) label tss xss x k text rows0, stops get ->
  Forall2 (Forall2 (reads get)) tss (xss ++ [x]) -> (forall xs, In xs (xss ++ [x]) -> Z.of_nat (length xs) < INT_MAX) ->
  in_int k -> Z.of_nat (length (xss ++ [x])) <= k ->
  Words text (label :: itoa k :: flat_map (fun ts => itoa (Z.of_nat (length ts)) :: ts) tss) ->
  Read2DArrayFromString get of_int text rows0 =
  Ok (k, map (fun xs => map Some (of_int (Z.of_nat (length xs)) :: xs)) (xss ++ [x]) ++
         repeat (Some (of_int (Z.of_nat (length x))) :: repeat None (length x)) (Z.to_nat k - length (xss ++ [x]))).
Proof.
  intros T get of_int label tss xss x k text rows0 HS F B HI L W.
  refine (read_2d_missing get of_int HS (map (fun ts => itoa (Z.of_nat (length ts)) :: ts) tss) xss x text label k rows0 HI _ L _).
  - clear W L. revert F B. generalize (xss ++ [x]). intros l F B. induction F as [|ts xs tss' l R F IH]; [constructor|]. cbn [map]. constructor.
    + exists ts. split; [|split; [exact R|apply B; left; reflexivity]]. rewrite (same_length R). reflexivity.
    + apply IH. intros; apply B; right; assumption.
  - rewrite <- flat_map_concat_map. exact W.
Qed.
Print Assumptions C122_rows_refuted.

(** A negative count throws, as does a row length below -1; a row length of -1 or of
    the largest int, or no row at all, is undefined. *)
Theorem C122_counts_refuted : forall (T : Type) (get : stream -> stream * option T) (of_int : Z -> T) label k text rows0, in_int k ->
  (forall ws, k < 0 -> Words text (label :: itoa k :: ws) ->
     Read1DArrayFromTxtFile get (Some text) rows0 = Throw /\ Read2DArrayFromTxtFile get of_int (Some text) rows0 = Throw /\
     Read2DArrayFromString get of_int text rows0 = Throw) /\
  (forall n ws, 0 < k -> in_int n -> Words text (label :: itoa k :: itoa n :: ws) ->
     (n = -1 \/ n = INT_MAX -> Read2DArrayFromString get of_int text rows0 = UB) /\
     (n < -1 -> Read2DArrayFromString get of_int text rows0 = Throw)) /\
  (0 < k -> Words text [label; itoa k] -> Read2DArrayFromString get of_int text rows0 = UB).
Proof.
  intros T get of_int label k text rows0 HI. split; [|split].
  - intros ws L W. exact (read_negative get of_int text label k ws rows0 HI L W).
  - intros n ws L HN W. exact (read_2d_bad get of_int text label k n ws rows0 HI HN L W).
  - intros L W. exact (read_2d_no_row get of_int text label k rows0 HI L W).
Qed.
Print Assumptions C122_counts_refuted.

(** Cases. *)
Definition nl : bytes := ["010"%char].
Lemma words_of s ws : StrProofs.endsb s = false -> SplitString s = ws -> ws <> [[]] -> Words s ws.
Proof.
  intros B E N. destruct (StrProofs.Words_exists _ s (le_n _)) as [ws' W]. rewrite (StrProofs.SplitString_char _ _ W) in E.
  destruct ws'; [congruence|]. rewrite B in E. subst. exact W.
Qed.

Example C120_ex :
  let text := list_ascii_of_string "values 2  3 10 -20 30" ++ nl ++ list_ascii_of_string "1 7" in
  Read2DArrayFromString get_int (fun z => z) text None = Ok (2, [[Some 3; Some 10; Some (-20); Some 30]; [Some 1; Some 7]]) /\
  Read1DArrayFromTxtFile get_int (Some text) None = Ok (2, [Some 3; Some 10]) /\
  Words text (list_ascii_of_string "values" :: itoa 2 ::
    flat_map (fun ts => itoa (Z.of_nat (length ts)) :: ts) [map itoa [10; -20; 30]; map itoa [7]]) /\
  Forall2 (Forall2 (reads get_int)) [map itoa [10; -20; 30]; map itoa [7]] [[10; -20; 30]; [7]].
Proof.
  split; [vm_compute; reflexivity|]. split; [vm_compute; reflexivity|]. split.
  - apply words_of; [vm_compute; reflexivity|vm_compute; reflexivity|vm_compute; discriminate].
  - repeat constructor; apply get_int_reads; vm_compute; split; discriminate.
Qed.

Example C121_ex :
  stops get_int /\ (forall z, Z.abs z < 1000000 -> reads get_int (itoa z) z) /\
  Read1DArrayFromTxtFile get_int (Some (Output1DArrayToTxtFile (map FloatModel.of_int [10; 3; 30]))) (Some 3) = Ok (3, [Some 30; None; None]) /\
  Read1DArrayFromTxtFile get_int (Some (Output1DArrayToTxtFile (map FloatModel.of_int [5; -3; 30]))) (Some 3) = Throw /\
  Read2DArrayFromTxtFile get_int (fun z => z) (Some (Output2DArrayToTxtFile (map (map FloatModel.of_int) [[1; 2]; [1; 4]]))) None =
    Ok (2, [[Some 1; Some 4]; [Some 1; None]]).
Proof.
  split; [exact get_int_stops|]. split; [intros z H; apply get_int_reads, small_int, H|]. vm_compute. repeat split; reflexivity.
Qed.

Example C122_ex :
  Read1DArrayFromTxtFile get_int None (Some 2) = Ok (2, [None; None]) /\ Read1DArrayFromTxtFile get_int None None = UB /\
  Read1DArrayFromTxtFile get_int (Some (list_ascii_of_string "a 3 8")) None = Ok (3, [Some 8; None; None]) /\
  Read2DArrayFromString get_int (fun z => z) (list_ascii_of_string "a 3 2 8 9") None =
    Ok (3, [[Some 2; Some 8; Some 9]; [Some 2; None; None]; [Some 2; None; None]]) /\
  Read2DArrayFromString get_int (fun z => z) (list_ascii_of_string "a 1 -1") None = UB /\
  Read2DArrayFromString get_int (fun z => z) (list_ascii_of_string "a 1 -2") None = Throw /\
  Words (list_ascii_of_string "a 1 -1") [list_ascii_of_string "a"; itoa 1; itoa (-1)].
Proof.
  repeat split; try (vm_compute; reflexivity). apply words_of; [vm_compute; reflexivity|vm_compute; reflexivity|vm_compute; discriminate].
Qed.
