(** Lemmas about the command-line tool. *)
From Coq Require Import ZArith Ascii String List Bool Lia.
From Verif Require Import Base StrModel StrSpec StrProofs MapModel MapProofs SubsetModel SubsetProofs RasterModel AppModel AppSpec.
Import ListNotations.
Open Scope Z_scope.

Lemma not_in_itoa c z : isdigit c = false -> c <> "-"%char -> ~ In c (itoa z).
Proof.
  intros D M H. destruct (itoa_canonical z) as [(d & E & _ & _ & HF & _)|(d & E & _ & _ & HF & _)]; rewrite E in H; rewrite Forall_forall in HF.
  - rewrite (HF c H) in D. discriminate.
  - destruct H as [H|H]; [congruence|]. rewrite (HF c H) in D. discriminate.
Qed.

Lemma In_join c d l : In c (join d l) -> c = d \/ exists x, In x l /\ In c x.
Proof.
  induction l as [|x l IH]; cbn [join]; [intros []|]. destruct l as [|y l].
  - intros H. right. exists x. split; [left; reflexivity|exact H].
  - rewrite in_app_iff. intros [H|[H|H]]; [right; exists x; split; [left; reflexivity|exact H]|left; congruence|].
    destruct (IH H) as [E|(z & Hz & Hc)]; [auto|right; exists z; split; [right; exact Hz|exact Hc]].
Qed.

Lemma join_nonempty d l : l <> [] -> last l [] <> [] -> join d l <> [].
Proof.
  intros N L. destruct l as [|x l]; [congruence|]. cbn [join]. destruct l as [|y l]; [exact L|]. destruct x; discriminate.
Qed.

Lemma itoa_nonempty z : itoa z <> [].
Proof. destruct (itoa_canonical z) as [(d & -> & _ & N & _)|(d & -> & _)]; [exact N|discriminate]. Qed.

Section V.
Context {V : Type}.
Variable strtod : bytes -> V * nat.

Definition number (v : bytes) : Prop := snd (strtod v) = length v.

Lemma take_all l : Forall number l -> take_values strtod l = map (fun v => fst (strtod v)) l.
Proof.
  induction 1 as [|v l H HF IH]; [reflexivity|]. cbn [take_values map]. unfold IsDouble, number in *.
  destruct (strtod v) as [x n]. cbn [fst snd] in *. subst n. rewrite Nat.eqb_refl, IH. reflexivity.
Qed.

(** A well-formed entry. *)
Definition entry_ok (e : Z * list bytes) : Prop :=
  in_int (fst e) /\ snd e <> [] /\
  Forall (fun v => v <> [] /\ ~ In ","%char v /\ ~ In ":"%char v /\ ~ In "|"%char v /\ number v) (snd e).

Lemma last_forall {A} (P : A -> Prop) l d : Forall P l -> l <> [] -> P (last l d).
Proof. induction 1 as [|x l H HF IH]; [congruence|]. intros _. destruct l; [exact H|]. cbn [last]. apply IH. discriminate. Qed.

Lemma kv_step_ok m b e : entry_ok e ->
  kv_step strtod (m, b) (entry_text e) =
  (match zfind m (fst e) with Some _ => m | None => zput m (fst e) (map (fun v => fst (strtod v)) (snd e)) end, b).
Proof.
  intros (HI & HN & HF). destruct e as [k vs]. cbn [fst snd] in *. unfold kv_step, entry_text. cbn [fst snd].
  assert (HL : last vs [] <> []) by (apply (last_forall (fun v => v <> []) vs []); [eapply Forall_impl; [|exact HF]; cbn; tauto|exact HN]).
  assert (HS : SplitString_d (itoa k ++ ":"%char :: join "|" vs) ":" = [itoa k; join "|" vs]).
  { apply (split_join ":" [itoa k; join "|" vs]); [|discriminate|cbn [last]; apply join_nonempty; auto].
    constructor; [apply not_in_itoa; [reflexivity|discriminate]|]. constructor; [|constructor].
    intros H. apply In_join in H. destruct H as [H|(x & Hx & Hc)]; [discriminate|]. rewrite Forall_forall in HF. pose proof (HF x Hx). tauto. }
  rewrite HS, (IsInt_itoa k HI).
  rewrite (split_join "|" vs); [|eapply Forall_impl; [|exact HF]; cbn; tauto|exact HN|exact HL].
  rewrite take_all by (eapply Forall_impl; [|exact HF]; cbn; tauto). rewrite map_length, Nat.eqb_refl. reflexivity.
Qed.

Lemma kv_fold (es : list (Z * list bytes)) : Forall entry_ok es -> forall m, ksorted m ->
  exists m', fold_left (kv_step strtod) (map entry_text es) (m, true) = (m', true) /\ ksorted m' /\
   forall k, zfind m' k = match zfind m k with Some x => Some x
                          | None => option_map (map (fun v => fst (strtod v))) (first_for Z.eqb k es) end.
Proof.
  induction 1 as [|e es He HF IH]; intros m HS.
  - exists m. cbn. split; [reflexivity|]. split; [exact HS|]. intros k. destruct (zfind m k); reflexivity.
  - cbn [map fold_left]. rewrite (kv_step_ok m true e He).
    set (m1 := match zfind m (fst e) with Some _ => m | None => zput m (fst e) (map (fun v => fst (strtod v)) (snd e)) end).
    assert (S1 : ksorted m1) by (unfold m1; destruct (zfind m (fst e)); [exact HS|apply zput_sorted; exact HS]).
    destruct (IH m1 S1) as (m' & E & S' & G). exists m'. split; [exact E|]. split; [exact S'|]. intros k. rewrite G. unfold first_for. cbn [find].
    unfold m1. destruct (zfind m (fst e)) eqn:Z1.
    + destruct (zfind m k) eqn:Z2; [reflexivity|]. destruct (Z.eqb_spec (fst e) k) as [X|X]; [subst k; congruence|reflexivity].
    + rewrite zfind_zput by exact HS. destruct (Z.eqb_spec k (fst e)) as [X|X].
      * subst k. rewrite Z1, Z.eqb_refl. reflexivity.
      * destruct (zfind m k); [reflexivity|]. destruct (Z.eqb_spec (fst e) k) as [Y|Y]; [congruence|reflexivity].
Qed.

Lemma entry_no_comma e : entry_ok e -> ~ In ","%char (entry_text e).
Proof.
  intros (HI & HN & HF) H. unfold entry_text in H. rewrite in_app_iff in H. destruct H as [H|[H|H]].
  - revert H. apply not_in_itoa; [reflexivity|discriminate].
  - discriminate.
  - apply In_join in H. destruct H as [H|(x & Hx & Hc)]; [discriminate|]. rewrite Forall_forall in HF. pose proof (HF x Hx). tauto.
Qed.

Lemma parse_entries (es : list (Z * list bytes)) : es <> [] -> Forall entry_ok es ->
  exists m, parse_key_values strtod (join "," (map entry_text es)) = (m, true) /\ ksorted m /\
   forall k, zfind m k = option_map (map (fun v => fst (strtod v))) (first_for Z.eqb k es).
Proof.
  intros N HF. unfold parse_key_values. rewrite split_join.
  - destruct (kv_fold es HF []) as (m & E & S & G); [constructor|]. exists m. destruct es as [|e es]; [congruence|].
    cbn [map]. cbn [map] in E. split; [exact E|]. split; [exact S|]. intros k. rewrite G. reflexivity.
  - apply Forall_map. eapply Forall_impl; [|exact HF]. apply entry_no_comma.
  - destruct es; [congruence|discriminate].
  - apply (last_forall (fun v => v <> [])); [|destruct es; [congruence|discriminate]]. apply Forall_map. eapply Forall_impl; [|exact HF].
    intros e _. unfold entry_text. pose proof (itoa_nonempty (fst e)). destruct (itoa (fst e)); [congruence|discriminate].
Qed.

(** Entries without a colon count for nothing. *)
Lemma kv_skip st e : ~ In ":"%char e -> kv_step strtod st e = st.
Proof.
  intros H. unfold kv_step. destruct e as [|c e]; [reflexivity|].
  assert (SplitString_d (c :: e) ":" = [c :: e]) as ->; [|reflexivity].
  apply (split_join ":" [c :: e]); [constructor; auto|discriminate|discriminate].
Qed.

Lemma parse_skip a e b : ~ In ":"%char e -> ~ In ","%char e -> e <> [] -> a ++ b <> [] ->
  Forall (fun x => x <> [] /\ ~ In ","%char x) (a ++ b) ->
  parse_key_values strtod (join "," (a ++ e :: b)) = parse_key_values strtod (join "," (a ++ b)).
Proof.
  intros HC HK HE N HF. unfold parse_key_values.
  assert (HF' : Forall (fun x => x <> [] /\ ~ In ","%char x) (a ++ e :: b)).
  { apply Forall_app in HF. apply Forall_app. split; [tauto|]. constructor; [auto|tauto]. }
  rewrite !split_join; try exact N; try (destruct a; discriminate);
    try (apply (last_forall (fun v => v <> [])); [|first [exact N|destruct a; discriminate]]); try (eapply Forall_impl; [|first [exact HF|exact HF']]; cbn; tauto).
  assert (M : forall l, l <> [] -> match l with [] => ([], false) | x :: t => fold_left (kv_step strtod) (x :: t) ([], true) end = fold_left (kv_step strtod) l ([], true)).
  { intros [|? ?] ?; [congruence|reflexivity]. }
  rewrite !M by (try exact N; destruct a; discriminate).
  rewrite !fold_left_app. cbn [fold_left]. rewrite kv_skip by exact HC. reflexivity.
Qed.

Lemma parse_fold a : a <> [] -> Forall (fun x => x <> [] /\ ~ In ","%char x) a ->
  parse_key_values strtod (join "," a) = fold_left (kv_step strtod) a ([], true).
Proof.
  intros N HF. unfold parse_key_values. rewrite split_join; [destruct a; [congruence|reflexivity]| |exact N|].
  - eapply Forall_impl; [|exact HF]. cbn. tauto.
  - apply (last_forall (fun v => v <> [])); [|exact N]. eapply Forall_impl; [|exact HF]. cbn. tauto.
Qed.

Lemma kv_bad_key st k v : ~ In ":"%char k -> ~ In ":"%char v -> v <> [] -> snd (IsInt k) = false ->
  kv_step strtod st (k ++ ":"%char :: v) = st.
Proof.
  intros HK HV NV B. unfold kv_step.
  assert (SplitString_d (k ++ ":"%char :: v) ":" = [k; v]) as ->.
  { change (k ++ ":"%char :: v) with (join ":" [k; v]). apply split_join; [repeat constructor; assumption|discriminate|exact NV]. }
  destruct (IsInt k) as [z ok]. cbn in B. rewrite B. reflexivity.
Qed.

Lemma kv_flag es : forall m f, fold_left (kv_step strtod) es (m, f) =
  (fst (fold_left (kv_step strtod) es (m, true)), f && snd (fold_left (kv_step strtod) es (m, true))).
Proof.
  induction es as [|e es IH]; intros m f; cbn [fold_left]; [cbn; rewrite andb_true_r; reflexivity|].
  assert (ST : forall g, kv_step strtod (m, g) e = (fst (kv_step strtod (m, true) e), g && snd (kv_step strtod (m, true) e))).
  { intros g. unfold kv_step. destruct (SplitString_d e ":") as [|k [|v [|? ?]]]; cbn; try (rewrite andb_true_r; reflexivity).
    destruct (IsInt k) as [z ok]. destruct ok; cbn; [|rewrite andb_true_r; reflexivity].
    destruct (Nat.eqb _ _); cbn; [rewrite andb_true_r; reflexivity|rewrite andb_false_r; reflexivity]. }
  rewrite (ST f), IH. rewrite (ST true), (IH _ (true && _)). cbn [fst snd]. f_equal. rewrite !andb_true_l. rewrite andb_assoc. reflexivity.
Qed.

Lemma take_short l : (exists s, In s l /\ snd (IsDouble V strtod s) = false) -> (length (take_values strtod l) < length l)%nat.
Proof.
  induction l as [|s l IH]; intros (x & I & B); [destruct I|]. cbn [take_values]. destruct (IsDouble V strtod s) as [v ok] eqn:E.
  destruct ok; [|cbn; lia]. cbn. destruct I as [->|I]; [rewrite E in B; discriminate|]. apply -> Nat.succ_lt_mono. apply IH. eauto.
Qed.

Lemma kv_bad_value st k vs : in_int k -> vs <> [] -> Forall (fun v => v <> [] /\ ~ In ":"%char v /\ ~ In "|"%char v) vs ->
  (exists s, In s vs /\ snd (strtod s) <> length s) -> kv_step strtod st (entry_text (k, vs)) = (fst st, false).
Proof.
  intros HI N HF (s & I & B). unfold kv_step, entry_text. cbn [fst snd].
  assert (J : join "|" vs <> []).
  { rewrite Forall_forall in HF. destruct vs as [|x [|y r]]; [congruence| |]; cbn [join].
    - apply (HF x). left. reflexivity.
    - destruct x; discriminate. }
  assert (SplitString_d (itoa k ++ ":"%char :: join "|" vs) ":" = [itoa k; join "|" vs]) as ->.
  { change (itoa k ++ ":"%char :: join "|" vs) with (join ":" [itoa k; join "|" vs]). apply split_join; [|discriminate|exact J].
    repeat constructor; [apply not_in_itoa; [reflexivity|discriminate]|]. intros H. apply In_join in H. destruct H as [H|(x & Hx & Hc)]; [discriminate|].
    rewrite Forall_forall in HF. destruct (HF x Hx) as (_ & H & _). contradiction. }
  rewrite (IsInt_itoa k HI). rewrite split_join; [|eapply Forall_impl; [|exact HF]; cbn; tauto|exact N|].
  2:{ apply (last_forall (fun v => v <> [])); [|exact N]. eapply Forall_impl; [|exact HF]. cbn. tauto. }
  assert (L : (length (take_values strtod vs) < length vs)%nat).
  { apply take_short. exists s. split; [exact I|]. unfold IsDouble. destruct (strtod s) as [v n]. cbn in B |- *. apply Nat.eqb_neq. congruence. }
  assert (X : Nat.eqb (length vs) (length (take_values strtod vs)) = false) by (apply Nat.eqb_neq; lia).
  match goal with |- (if ?c then _ else _) = _ => change c with (Nat.eqb (length vs) (length (take_values strtod vs))) end. rewrite X. reflexivity.
Qed.
End V.

Section Cmd.
Context {V : Type}.
Variable strtod : bytes -> V * nat.

(** An option of a command line that is told apart as intended. *)
Definition group_ok (g : bytes * list bytes) : Prop :=
  snd (strtod ("-"%char :: fst g)) <> length ("-"%char :: fst g) /\
  Forall (fun v => (forall t, v <> "-"%char :: t) \/ (snd (strtod v) = length v /\ StringMatch v config_word = false)) (snd g) /\
  (is_config g = true -> exists p t, snd g = p :: t /\ forall t, p <> "-"%char :: t).

Fixpoint positions (idx : nat) (gs : list (bytes * list bytes)) : list nat :=
  match gs with [] => [] | g :: t => idx :: positions (idx + 1 + length (snd g))%nat t end.
Definition pick (c : bytes) (g : bytes * list bytes) : bytes := if is_config g then hd c (snd g) else c.

Lemma dash_false v : (forall t, v <> "-"%char :: t) -> dash v = false.
Proof.
  destruct v as [|c v]; [reflexivity|]. intros H. cbn [dash]. apply beqb_false. intros E. injection E as ->. exact (H v eq_refl).
Qed.

Lemma scan_values vs : Forall (fun v => (forall t, v <> "-"%char :: t) \/ (snd (strtod v) = length v /\ StringMatch v config_word = false)) vs ->
  forall idx rest cfg seps, scan_args strtod idx (vs ++ rest) cfg seps = scan_args strtod (idx + length vs) rest cfg seps.
Proof.
  induction 1 as [|v vs H HF IH]; intros idx rest cfg seps; [cbn; f_equal; lia|].
  cbn [app scan_args length]. replace (idx + S (length vs))%nat with (S idx + length vs)%nat by lia.
  destruct H as [H|[H1 H2]]; [rewrite (dash_false v H); cbn [negb]; apply IH|].
  destruct (dash v) eqn:D; cbn [negb]; [|apply IH]. unfold config_word in H2. rewrite H2. cbn [obind].
  unfold IsDouble. destruct (strtod v) as [x n]. cbn [snd] in *. subst n. rewrite Nat.eqb_refl. apply IH.
Qed.

Lemma scan_cmd gs : Forall group_ok gs -> forall idx cfg seps,
  scan_args strtod idx (cmd gs) cfg seps = Ok (fold_left pick gs cfg, seps ++ positions idx gs).
Proof.
  induction 1 as [|g gs H HF IH]; intros idx cfg seps; [cbn; rewrite app_nil_r; reflexivity|].
  unfold cmd in *. destruct g as [k vs]. destruct H as (H1 & H2 & H3). cbn [fst snd] in *. cbn [map concat fst snd app scan_args positions fold_left].
  assert (D : dash ("-"%char :: k) = true) by reflexivity. rewrite D. cbn [negb].
  assert (ND : snd (IsDouble V strtod ("-"%char :: k)) = false).
  { unfold IsDouble. destruct (strtod ("-"%char :: k)) as [x n]. cbn [snd] in *. apply Nat.eqb_neq. exact H1. }
  rewrite ND.
  match goal with |- obind ?x _ = _ => assert (C : x = Ok (pick cfg (k, vs))) end.
  { unfold pick, is_config in *. cbn [fst snd] in *. change (str "-configfile") with config_word. destruct (StringMatch ("-"%char :: k) config_word); [|reflexivity].
    destruct (H3 eq_refl) as (p & t & -> & Hp). cbn [app hd]. rewrite (dash_false p Hp). reflexivity. }
  rewrite C. cbn [obind]. rewrite (scan_values vs H2). rewrite IH. rewrite <- app_assoc. cbn [app]. replace (idx + 1 + length vs)%nat with (S idx + length vs)%nat by lia. reflexivity.
Qed.

Definition put (m : smap (list bytes)) (g : bytes * list bytes) : smap (list bytes) :=
  if negb (is_config g) && match snd g with [] => false | _ => true end then emplace m (GetUpper (fst g)) (snd g) else m.

Lemma add_group (argv : list bytes) m a b (pre : list bytes) (g : bytes * list bytes) (rest : list bytes) : argv = pre ++ (("-"%char :: fst g) :: snd g) ++ rest -> a = length pre -> b = (a + 1 + length (snd g))%nat ->
  add_option argv m (a, b) = put m g.
Proof.
  intros E -> ->. unfold add_option, put, is_config. cbn [fst snd].
  replace (length pre + 1 + length (snd g) - length pre - 1)%nat with (length (snd g)) by lia.
  assert (K : nth (length pre) argv [] = "-"%char :: fst g) by (rewrite E, app_nth2, Nat.sub_diag by lia; reflexivity).
  assert (F : firstn (length (snd g)) (skipn (length pre + 1) argv) = snd g).
  { rewrite E. replace (pre ++ (("-"%char :: fst g) :: snd g) ++ rest) with ((pre ++ [("-"%char :: fst g) : bytes]) ++ snd g ++ rest) by (rewrite <- app_assoc; reflexivity).
    replace (length pre + 1)%nat with (length (pre ++ [("-"%char :: fst g) : bytes])) by (rewrite app_length; reflexivity).
    rewrite skipn_app, skipn_all, Nat.sub_diag. cbn [skipn app]. rewrite firstn_app, firstn_all, Nat.sub_diag. cbn [firstn]. apply app_nil_r. }
  rewrite F, K. change (str "-configfile") with config_word. cbn [skipn].
  destruct (snd g) as [|v vs]; [rewrite andb_false_r; reflexivity|]. rewrite andb_true_r.
  destruct (StringMatch ("-"%char :: fst g) config_word); reflexivity.
Qed.

Lemma add_groups gs : forall (pre argv : list bytes) m, argv = pre ++ cmd gs ->
  fold_left (add_option argv) (combine (positions (length pre) gs ++ [length argv]) (skipn 1 (positions (length pre) gs ++ [length argv]))) m = fold_left put gs m.
Proof.
  induction gs as [|g gs IH]; intros pre argv m E; [reflexivity|].
  cbn [positions]. set (p2 := (length pre + 1 + length (snd g))%nat).
  assert (E' : argv = (pre ++ (("-"%char :: fst g) :: snd g)) ++ cmd gs) by (rewrite E, <- app_assoc; reflexivity).
  assert (L : length (pre ++ (("-"%char :: fst g) :: snd g)) = p2) by (rewrite app_length; cbn; unfold p2; lia).
  cbn [app skipn]. 
  assert (T : exists t, positions p2 gs ++ [length argv] = p2 :: t).
  { destruct gs as [|g2 gs]; [|cbn [positions app]; eauto]. cbn [positions app]. exists []. rewrite E'. unfold cmd. cbn [map concat]. rewrite app_nil_r, L. reflexivity. }
  specialize (IH (pre ++ (("-"%char :: fst g) :: snd g)) argv (put m g) E'). rewrite L in IH.
  destruct T as (t & T). rewrite T in *. cbn [combine fold_left]. cbn [skipn] in IH.
  rewrite (add_group argv m (length pre) p2 pre g (cmd gs)); [|rewrite E', <- app_assoc; reflexivity|reflexivity|reflexivity].
  cbn [fold_left]. exact IH.
Qed.

Lemma lookup_puts gs : forall m K, lookup (fold_left put gs m) K = match lookup m K with Some v => Some v | None => first_for beqb K (given gs) end.
Proof.
  induction gs as [|g gs IH]; intros m K; [cbn; destruct (lookup m K); reflexivity|].
  cbn [fold_left]. rewrite IH. unfold given, put. cbn [filter].
  destruct (negb (is_config g) && match snd g with [] => false | _ => true end); [|reflexivity].
  rewrite lookup_emplace. destruct (lookup m K); [reflexivity|]. unfold first_for. cbn [map find fst snd].
  destruct (beqb (GetUpper (fst g)) K); reflexivity.
Qed.

Lemma pick_all gs : Forall group_ok gs -> forall c, fold_left pick gs c = last (map first_word (filter is_config gs)) c.
Proof.
  induction 1 as [|g gs H HF IH]; intros c; [reflexivity|]. cbn [fold_left filter]. rewrite IH. unfold pick.
  destruct (is_config g) eqn:E; [|reflexivity]. destruct H as (_ & _ & H). destruct (H E) as (p & t & Eg & _). cbn [map].
  assert (Ew : first_word g = p) by (unfold first_word; rewrite Eg; reflexivity). rewrite Ew, Eg. cbn [hd]. clear IH.
  generalize (map first_word (filter is_config gs)) as L. intros L.
  assert (X : forall (l : list bytes) y d1 d2, last (y :: l) d1 = last (y :: l) d2).
  { clear. induction l as [|z l IH]; intros y d1 d2; [reflexivity|]. cbn [last]. apply IH. }
  destruct L as [|y l]; [reflexivity|]. cbn [last]. destruct l as [|z l]; [reflexivity|apply X].
Qed.

Lemma collect_ok app gs : gs <> [] -> Forall group_ok gs ->
  exists m, collect_args strtod (app :: cmd gs) = Ok (Some (chosen gs, m)) /\ m = fold_left put gs [].
Proof.
  intros N HF. unfold collect_args. replace (Z.of_nat (length (app :: cmd gs)) <? 2) with false.
  - cbn [skipn]. rewrite (scan_cmd gs HF). cbn [obind fst snd Datatypes.app].
    pose proof (add_groups gs [app] (app :: cmd gs) [] eq_refl) as A. change (length [app]) with 1%nat in A.
    destruct (positions 1 gs ++ [length (app :: cmd gs)]) as [|p l] eqn:P; [destruct (positions 1 gs); discriminate|].
    cbn [skipn] in A |- *. unfold chosen. rewrite <- (pick_all gs HF). eexists. split; [reflexivity|exact A].
  - symmetry. apply Z.ltb_ge. destruct gs as [|g gs]; [congruence|]. cbn. lia.
Qed.

(* ---------- configuration lines ---------- *)

Definition apply_meaning (st : smap (list bytes) * list (list bytes)) (m : meaning) : smap (list bytes) * list (list bytes) :=
  match m with
  | Nothing => st
  | Opt k vs => (emplace (fst st) (GetUpper k) vs, snd st)
  | Item ps => (fst st, snd st ++ [ps])
  end.

Lemma config_line_ok st s m : line_means s m -> config_line st s = apply_meaning st m.
Proof.
  intros [E|t E|k E HT|k vs E HN HL HK HV|c t ps E H1 H2 EJ HN HL HF]; unfold config_line; rewrite E; cbn [apply_meaning].
  - reflexivity.
  - reflexivity.
  - change (beqb ["-"%char] (str "#")) with false. change (beqb ["-"%char] (str "-")) with true. cbv iota.
    assert (J : SplitString_d ("-"%char :: k) "009" = ["-"%char :: k]).
    { apply (split_join tab ["-"%char :: k]); [|discriminate|discriminate]. constructor; [|constructor]. intros [X|X]; [discriminate|auto]. }
    rewrite J. reflexivity.
  - destruct vs as [|v vs]; [congruence|].
    assert (J : SplitString_d (join tab (("-"%char :: k) :: v :: vs)) "009" = ("-"%char :: k) :: v :: vs).
    { apply (split_join tab); [|discriminate|exact HL]. constructor; [|exact HV]. intros [X|X]; [discriminate|auto]. }
    rewrite J. cbn [join app]. reflexivity.
  - rewrite EJ. assert (B1 : beqb [c] (str "#") = false) by (apply beqb_false; intros X; injection X; congruence).
    assert (B2 : beqb [c] (str "-") = false) by (apply beqb_false; intros X; injection X; congruence).
    rewrite <- EJ. rewrite B1, B2. rewrite EJ. rewrite (split_join ";" ps HF HN HL). destruct ps; [congruence|reflexivity].
Qed.

Lemma config_lines lines ms : Forall2 line_means lines ms -> forall m items,
  exists keys, fold_left config_line lines (m, items) = (keys, items ++ config_items ms) /\
   forall K, lookup keys K = match lookup m K with Some v => Some v | None => first_for beqb K (config_given ms) end.
Proof.
  induction 1 as [|s x lines ms H HF IH]; intros m items.
  - exists m. cbn. rewrite app_nil_r. split; [reflexivity|]. intros K. destruct (lookup m K); reflexivity.
  - cbn [fold_left]. rewrite (config_line_ok (m, items) s x H). destruct x as [|k vs|ps]; cbn [apply_meaning fst snd].
    + destruct (IH m items) as (keys & E & G). exists keys. cbn [config_given config_items flat_map app]. auto.
    + destruct (IH (emplace m (GetUpper k) vs) items) as (keys & E & G). exists keys. cbn [config_given config_items flat_map app]. split; [exact E|].
      intros K. rewrite G, lookup_emplace. destruct (lookup m K); [reflexivity|]. unfold first_for. cbn [find fst]. destruct (beqb (GetUpper k) K); reflexivity.
    + destruct (IH m (items ++ [ps])) as (keys & E & G). exists keys. cbn [config_given config_items flat_map app]. split; [|exact G].
      rewrite E. rewrite <- app_assoc. reflexivity.
Qed.

Lemma first_for_app {W} K (a b : list (bytes * W)) : first_for beqb K (a ++ b) = match first_for beqb K a with Some v => Some v | None => first_for beqb K b end.
Proof. unfold first_for. induction a as [|[k v] a IH]; [reflexivity|]. cbn [app find fst]. destruct (beqb k K); [reflexivity|exact IH]. Qed.

(** Without the word -configfile no file is ever chosen. *)
Lemma scan_no_config args : Forall (fun a => StringMatch a config_word = false) args -> forall idx cfg seps,
  exists seps', scan_args strtod idx args cfg seps = Ok (cfg, seps').
Proof.
  induction 1 as [|a args H HF IH]; intros idx cfg seps; [cbn; eauto|]. cbn [scan_args].
  destruct (negb (dash a)); [apply IH|]. unfold config_word in H. rewrite H. cbn [obind]. apply IH.
Qed.

Lemma scan_last args a : Forall (fun x => StringMatch x config_word = false) args -> StringMatch a config_word = true -> dash a = true ->
  forall idx cfg seps, scan_args strtod idx (args ++ [a]) cfg seps = UB.
Proof.
  intros HF HA HD. induction HF as [|x args H HF IH]; intros idx cfg seps.
  - cbn [app scan_args]. rewrite HD. cbn [negb]. unfold config_word in HA. rewrite HA. reflexivity.
  - cbn [app scan_args]. destruct (negb (dash x)); [apply IH|]. unfold config_word in H. rewrite H. cbn [obind]. apply IH.
Qed.
End Cmd.
