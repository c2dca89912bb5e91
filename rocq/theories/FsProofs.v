(** Proofs about FsModel. *)
From Coq Require Import ZArith Ascii String List Bool Lia Arith.
From Verif Require Import Base StrModel StrSpec StrProofs FsModel FsSpec.
Import ListNotations.
Open Scope nat_scope.

Lemma find_last_none c s : ~ In c s -> find_last c s = None.
Proof.
  induction s as [|x t IH]; intros H; [reflexivity|]. cbn [find_last].
  rewrite IH by (intros X; apply H; now right).
  destruct (ascii_dec x c) as [->|]; [exfalso; apply H; now left|reflexivity].
Qed.

Lemma find_last_app c a b : ~ In c b -> find_last c (a ++ c :: b) = Some (length a).
Proof.
  intros H. induction a as [|x a IH]; cbn [app find_last length].
  - rewrite find_last_none by exact H. now destruct (ascii_dec c c).
  - now rewrite IH.
Qed.

Lemma find_last_split c s i : find_last c s = Some i ->
  exists a b, s = a ++ c :: b /\ length a = i /\ ~ In c b.
Proof.
  revert i. induction s as [|x t IH]; intros i; cbn [find_last]; [discriminate|].
  destruct (find_last c t) as [n|] eqn:E.
  - intros [= <-]. destruct (IH n eq_refl) as [a [b [-> [L N]]]].
    exists (x :: a), b. cbn. repeat split; auto.
  - destruct (ascii_dec x c) as [->|]; [|discriminate]. intros [= <-].
    exists [], t. split; [reflexivity|]. split; [reflexivity|].
    clear IH. revert E. induction t as [|y t IH]; [now intros _ []|].
    cbn [find_last]. destruct (find_last c t); [discriminate|].
    destruct (ascii_dec y c); [discriminate|]. intros _ [?|?]; [congruence|]. now apply IH.
Qed.

Lemma find_last_in c s : find_last c s = None -> ~ In c s.
Proof.
  induction s as [|y t IH]; [now intros _ []|].
  cbn [find_last]. destruct (find_last c t); [discriminate|].
  destruct (ascii_dec y c); [discriminate|]. intros _ [?|?]; [congruence|]. now apply IH.
Qed.

Lemma firstn_app_len {A} (a b : list A) : firstn (length a) (a ++ b) = a.
Proof. rewrite firstn_app, Nat.sub_diag, firstn_all. cbn. apply app_nil_r. Qed.
Lemma skipn_app_len {A} (a b : list A) : skipn (length a) (a ++ b) = b.
Proof. rewrite skipn_app, Nat.sub_diag, skipn_all. reflexivity. Qed.

Section Paths.
Variable o : os.

Lemma resolves_abs f a : resolves o f a <-> GetAbsolutePath o f = a.
Proof.
  unfold resolves, GetAbsolutePath. destruct (realpath o f) as [p|]; split.
  - intros [[= ->]|[? _]]; [reflexivity|discriminate].
  - intros ->. now left.
  - intros [?|[_ ->]]; [discriminate|reflexivity].
  - intros <-. now right.
Qed.

Lemma not_directory_abs a : not_directory o a -> DirectoryExists o a = false.
Proof. intros H. apply H. now apply resolves_abs. Qed.

Lemma GetPath_parts f a d core suf : resolves o f a -> not_directory o a -> path_parts a d core suf ->
  GetPathFromFullName o f = d ++ [SEP].
Proof.
  intros R N (E & Hc & Hs & Hd). apply resolves_abs in R. unfold GetPathFromFullName. rewrite R.
  rewrite (not_directory_abs _ N). rewrite E. change "/"%char with SEP.
  rewrite find_last_app by (intros X; apply in_app_or in X as [X|[X|X]]; [auto|discriminate X|auto]).
  replace (length d + 1) with (length (d ++ [SEP])) by (rewrite app_length; reflexivity).
  change (d ++ SEP :: core ++ "."%char :: suf) with (d ++ [SEP] ++ core ++ "."%char :: suf).
  rewrite app_assoc. apply firstn_app_len.
Qed.

Lemma GetCore_parts f a d core suf : resolves o f a -> path_parts a d core suf ->
  GetCoreFileName o f = core.
Proof.
  intros R (E & Hc & Hs & Hd). apply resolves_abs in R. unfold GetCoreFileName. rewrite R. rewrite E. change "/"%char with SEP. change "."%char with DOT.
  rewrite find_last_app by (intros X; apply in_app_or in X as [X|[X|X]]; [auto|discriminate X|auto]).
  replace (find_last DOT (d ++ SEP :: core ++ DOT :: suf)) with (Some (length (d ++ SEP :: core))).
  2:{ symmetry. rewrite app_comm_cons, app_assoc. now apply find_last_app. }
  rewrite app_length. cbn [length]. unfold substr_to.
  replace (length d + S (length core) <? length d + 1) with false by (symmetry; apply Nat.ltb_ge; lia).
  replace (length d + S (length core) - (length d + 1)) with (length core) by lia.
  replace (length d + 1) with (length (d ++ [SEP])) by (rewrite app_length; reflexivity).
  change (d ++ SEP :: core ++ DOT :: suf) with (d ++ [SEP] ++ core ++ DOT :: suf).
  rewrite app_assoc, skipn_app_len. apply firstn_app_len.
Qed.

(** The last piece of a split. *)
Lemma split_last_piece d : forall (a suf : bytes), ~ In d suf -> suf <> [] ->
  exists p, SplitString_d (a ++ d :: suf) d = p ++ [suf] /\ p <> [].
Proof.
  intros a suf Hs Hn.
  destruct (SplitString_d_ok (a ++ d :: suf) d) as [F [[E _]|[(_ & Hp & Ew & E)|(_ & Hp & _ & E)]]].
  - destruct a; discriminate E.
  - exfalso. change (a ++ d :: suf) with (a ++ [d] ++ suf) in Ew. rewrite app_assoc in Ew.
    apply (proj1 (ends_with_app d (a ++ [d]) suf Hn)) in Ew. destruct Ew as [s' ->].
    apply Hs, in_or_app. right; now left.
  - set (p := SplitString_d (a ++ d :: suf) d) in *. clearbody p. revert a E.
    induction p as [|x p IH]; intros a E; [congruence|].
    inversion F as [|? ? Fx Fp]; subst. destruct p as [|y p].
    + cbn [join] in E. exfalso. apply Fx. rewrite <- E. apply in_or_app. right; now left.
    + change (join d (x :: y :: p)) with (x ++ d :: join d (y :: p)) in E.
      destruct p as [|z p].
      * cbn [join] in E. inversion Fp; subst.
        assert (X : a = x /\ suf = y).
        { clear - E Hs Fx H1 . revert x E Fx. induction a as [|c a IHa]; intros x E Fx.
          - destruct x as [|c x]; cbn in E; inversion E; subst; [auto|exfalso; apply Fx; now left].
          - destruct x as [|c' x]; cbn in E; inversion E; subst.
            + exfalso. apply H1. apply in_or_app. right. now left.
            + destruct (IHa x) as [-> ->]; auto. intros X; apply Fx; now right. }
        destruct X as [-> ->]. exists [x]. split; [reflexivity|discriminate].
      * assert (X : exists a', a = x ++ d :: a' /\ a' ++ d :: suf = join d (y :: z :: p)).
        { clear - E Hs Fx Fp. revert x E Fx. induction a as [|c a IHa]; intros x E Fx.
          - destruct x as [|c x]; cbn [app] in E; inversion E; subst.
            + exfalso. inversion Fp; subst. apply Hs.
              change (join d (y :: z :: p)) with (y ++ d :: join d (z :: p)).
              apply in_or_app. right. now left.
            + exfalso. apply Fx. now left.
          - destruct x as [|c' x]; cbn [app] in E; inversion E; subst.
            + exists a. split; [reflexivity|assumption].
            + destruct (IHa x) as [a' [-> E']]; auto; [intros X; apply Fx; now right|].
              exists a'. auto. }
        destruct X as [a' [-> E']].
        destruct (IH Fp ltac:(discriminate) a' E') as [q [Eq Hq]].
        exists (x :: q). cbn [app]. rewrite Eq. split; [reflexivity|discriminate].
Qed.

Lemma GetSuffix_dot f a x suf : resolves o f a -> a = x ++ DOT :: suf -> ~ In DOT suf -> suf <> [] ->
  GetSuffix o f = suf.
Proof.
  intros R -> Hd Hn. apply resolves_abs in R. unfold GetSuffix. rewrite R.
  destruct (split_last_piece DOT x suf Hd Hn) as [p [-> Hp]].
  destruct p as [|y p]; [congruence|]. rewrite last_last. rewrite app_length. cbn [length].
  now replace (2 <=? S (length p) + 1) with true by (symmetry; apply Nat.leb_le; lia).
Qed.

Lemma split_no_delim d s : ~ In d s -> (length (SplitString_d s d) <= 1).
Proof.
  intros H. destruct (SplitString_d_ok s d) as [F [[_ ->]|[(_ & _ & [s' ->] & _)|(_ & _ & _ & E)]]].
  - cbn; lia.
  - exfalso. apply H, in_or_app. right; now left.
  - destruct (SplitString_d s d) as [|x [|y p]]; cbn [length]; try lia.
    exfalso. apply H. rewrite E. change (join d (x :: y :: p)) with (x ++ d :: join d (y :: p)).
    apply in_or_app. right; now left.
Qed.

Lemma GetSuffix_nodot f a : resolves o f a -> ~ In DOT a -> GetSuffix o f = [].
Proof.
  intros R H. apply resolves_abs in R. unfold GetSuffix. rewrite R.
  pose proof (split_no_delim DOT a H).
  now replace (2 <=? length (SplitString_d a DOT)) with false by (symmetry; apply Nat.leb_gt; lia).
Qed.

Lemma GetSuffix_parts f a d core suf : resolves o f a -> path_parts a d core suf -> suf <> [] ->
  GetSuffix o f = suf.
Proof.
  intros R (E & _ & _ & Hd) Hn. apply (GetSuffix_dot f a (d ++ SEP :: core) suf); auto.
  rewrite E. unfold SEP, DOT. rewrite <- app_assoc. reflexivity.
Qed.

Lemma recompose f a d core suf : resolves o f a -> not_directory o a -> path_parts a d core suf -> suf <> [] ->
  GetPathFromFullName o f ++ GetCoreFileName o f ++ "."%char :: GetSuffix o f = a.
Proof.
  intros R N P Hn. rewrite (GetPath_parts f a d core suf R N P), (GetCore_parts f a d core suf R P),
    (GetSuffix_parts f a d core suf R P Hn).
  destruct P as [-> _]. rewrite <- app_assoc. reflexivity.
Qed.

Lemma ReplaceSuffix_parts f a d core suf new : resolves o f a -> not_directory o a ->
  path_parts a d core suf -> suf <> [] ->
  ReplaceSuffix o f new = d ++ "/"%char :: core ++ "."%char :: new.
Proof.
  intros R N P Hn. unfold ReplaceSuffix.
  rewrite (GetPath_parts f a d core suf R N P), (GetCore_parts f a d core suf R P),
    (GetSuffix_parts f a d core suf R P Hn).
  destruct (d ++ [SEP]) as [|x y] eqn:E; [destruct d; discriminate E|].
  destruct suf as [|s0 s1]; [congruence|]. rewrite <- E. rewrite <- app_assoc. reflexivity.
Qed.

(** Directory text with exactly one separator appended when missing. *)
Lemma Concat_char fdir p core suf : resolves o fdir p -> p <> [] ->
  exists q, (p = q ++ [SEP] /\ ConcatFullName o fdir core suf =
                                 q ++ SEP :: core ++ (if suf then [] else DOT :: suf)) \/
            (~ ends_with SEP p /\ p = q /\ ConcatFullName o fdir core suf =
                                 q ++ SEP :: core ++ (if suf then [] else DOT :: suf)).
Proof.
  intros R Hp. apply resolves_abs in R. unfold ConcatFullName. rewrite R.
  assert (T : forall x, match suf with [] => x ++ core | _ => (x ++ core) ++ DOT :: suf end =
                        x ++ core ++ (if suf then [] else DOT :: suf)).
  { intros x. destruct suf; rewrite <- ?app_assoc, ?app_nil_r; reflexivity. }
  rewrite T. destruct p as [|x p]; [congruence|].
  destruct (find_last SEP (x :: p)) as [i|] eqn:F.
  - destruct (find_last_split _ _ _ F) as [a [b [E [L Hb]]]].
    destruct (Nat.eqb_spec i (length (x :: p) - 1)) as [Hi|Hi].
    + assert (b = []).
      { rewrite E, app_length in Hi. cbn [length] in Hi. destruct b; [reflexivity|cbn in Hi; lia]. }
      subst b. exists a. left. split; [exact E|]. rewrite E, <- app_assoc. reflexivity.
    + exists (x :: p). right. split; [|split; [reflexivity|rewrite <- app_assoc; reflexivity]].
      intros [s' E']. apply Hi. rewrite E' in *. clear E'. rewrite app_length. cbn [length].
      assert (X : find_last SEP (s' ++ [SEP]) = Some (length s')) by (apply find_last_app; now intros []).
      rewrite X in F. injection F as <-. lia.
  - exists (x :: p). right. split; [|split; [reflexivity|rewrite <- app_assoc; reflexivity]].
    intros [s' E']. apply (find_last_in _ _ F). rewrite E'. apply in_or_app. right; now left.
Qed.
End Paths.

(** Directory listing. *)
Lemma starts_with_iff p s : starts_with p s = true <-> exists t, s = p ++ t.
Proof.
  revert s. induction p as [|a p IH]; intros s; cbn [starts_with].
  - split; [intros _; exists s; reflexivity|reflexivity].
  - destruct s as [|b s]; [split; [discriminate|intros [t E]; discriminate E]|].
    destruct (ascii_dec a b) as [->|Hn].
    + rewrite IH. split; intros [t E]; exists t; [now rewrite E|now inversion E].
    + split; [discriminate|]. intros [t E]. inversion E. congruence.
Qed.

Lemma contains_iff s sub : contains s sub = true <-> exists a b, s = a ++ sub ++ b.
Proof.
  induction s as [|c s IH]; cbn [contains]; rewrite orb_true_iff, starts_with_iff.
  - split.
    + intros [[t E]|E]; [exists [], t; exact E|discriminate].
    + intros [a [b E]]. left. exists b. destruct a; [exact E|discriminate E].
  - rewrite IH. split.
    + intros [[t E]|[a [b E]]]; [exists [], t; exact E|]. exists (c :: a), b. cbn. now rewrite E.
    + intros [[|x a] [b E]]; [left; exists b; exact E|]. right. exists a, b. now inversion E.
Qed.

Lemma hidden_iff n : hidden n = true <-> exists t, n = "."%char :: t.
Proof.
  unfold hidden, DOT. destruct n as [|c t]; [split; [discriminate|intros [? E]; discriminate E]|].
  destruct (ascii_dec c ".") as [->|Hn]; split.
  - intros _. now exists t.
  - reflexivity.
  - discriminate.
  - intros [t' E]. inversion E. congruence.
Qed.

Lemma entry_matches_iff o expr n : entry_matches o expr n = true <->
  (exists a b, expr = a ++ GetSuffix o n ++ b) \/ Forall2 same_letter (GetSuffix o n) expr \/
  Forall2 same_letter expr (str ".*") \/ Forall2 same_letter expr (str "*.*").
Proof.
  unfold entry_matches. rewrite !orb_true_iff, contains_iff, !StringMatch_iff. tauto.
Qed.

Lemma FindFiles_iff o path r w es expr p :
  In p (FindFiles o path (Dir r w es) expr) <->
  r = true /\ exists n c, In (n, c) es /\ p = path ++ SEP :: n /\ ~ (exists t, n = "."%char :: t) /\
    ((exists a b, expr = a ++ GetSuffix o n ++ b) \/ Forall2 same_letter (GetSuffix o n) expr \/
     Forall2 same_letter expr (str ".*") \/ Forall2 same_letter expr (str "*.*")).
Proof.
  unfold FindFiles. destruct r; [|split; [intros []|intros [? _]; discriminate]].
  rewrite in_map_iff. split.
  - intros [n [<- H]]. apply filter_In in H as [H1 H2]. apply andb_true_iff in H2 as [H2 H3].
    apply in_map_iff in H1 as [[n' c] [E Hin]]. cbn in E. subst n'. split; [reflexivity|].
    exists n, c. split; [exact Hin|]. split; [reflexivity|]. split; [|now apply entry_matches_iff].
    intros X. apply hidden_iff in X. rewrite X in H2. discriminate.
  - intros [_ [n [c [Hin [-> [Hh Hm]]]]]]. exists n. split; [reflexivity|]. apply filter_In. split.
    + apply in_map_iff. exists (n, c). auto.
    + apply andb_true_iff. split; [|now apply entry_matches_iff].
      destruct (hidden n) eqn:E; [|reflexivity]. exfalso. apply Hh. now apply hidden_iff.
Qed.

Lemma star_matches o n : entry_matches o (str "*.*") n = true.
Proof. unfold entry_matches. rewrite orb_true_iff. right. reflexivity. Qed.

(** Cleaning. *)
Lemma removable_iff pw n : removable pw n = pw && negb (nonempty_dir n).
Proof. unfold removable, nonempty_dir. destruct n as [|r w [|e es]]; reflexivity. Qed.

Lemma Clean_left o pw path es : exists b,
  CleanDirectory o pw path (Some (Dir true true es)) =
    (b, Some (Dir true true (filter (fun e => hidden (fst e) || nonempty_dir (snd e)) es))) /\
  (b = true <-> forall n c, In (n, c) es -> hidden n = false -> nonempty_dir c = false).
Proof.
  eexists. split.
  - cbn [CleanDirectory]. f_equal. f_equal. f_equal. apply filter_ext. intros [n c]. cbn [fst snd].
    rewrite star_matches, removable_iff. destruct (hidden n), (nonempty_dir c); reflexivity.
  - rewrite negb_true_iff. split.
    + intros H n c Hin Hh. destruct (nonempty_dir c) eqn:E; [|reflexivity].
      assert (X : existsb (fun e : bytes * node => true && negb (hidden (fst e)) && entry_matches o (str "*.*") (fst e) &&
        negb (removable true (snd e))) es = true).
      { apply existsb_exists. exists (n, c). split; [exact Hin|]. cbn [fst snd].
        rewrite Hh, star_matches, removable_iff, E. reflexivity. }
      rewrite X in H. discriminate.
    + intros H. match goal with |- ?x = false => destruct x eqn:E; [|reflexivity] end.
      apply existsb_exists in E as [[n c] [Hin E]]. cbn [fst snd] in E.
      rewrite star_matches, removable_iff in E. destruct (hidden n) eqn:Hh; [discriminate E|].
      rewrite (H n c Hin Hh) in E. discriminate E.
Qed.

(** Deleting. *)
Definition node_size := fix go (n : node) : nat :=
  match n with
  | Leaf => 1
  | Dir _ _ es => S ((fix gl (l : list (bytes * node)) := match l with [] => 0 | e :: t => go (snd e) + gl t end) es)
  end.

Lemma node_size_in : forall es r w e, In e es -> node_size (snd e) < node_size (Dir r w es).
Proof.
  intros es r w e. induction es as [|x t IH]; [intros []|].
  intros [->|H]; cbn [node_size]; [lia|]. specialize (IH H). cbn [node_size] in IH. lia.
Qed.

Lemma Delete_all : forall k n, node_size n < k -> accessible n -> n <> Leaf -> DeleteDirectory true true n = None.
Proof.
  induction k as [|k IH]; intros n Hk Ha Hl; [lia|].
  destruct Ha as [|es Hes]; [congruence|].
  cbn [DeleteDirectory].
  set (loop := fix loop (l : list (bytes * node)) : list (bytes * node) :=
        match l with
        | [] => []
        | (nm, c) :: t => _
        end).
  assert (L : forall l, (forall e, In e l -> In e es) -> loop l = []).
  { induction l as [|[nm c] t IHt]; intros Hin; [reflexivity|]. cbn [loop].
    assert (Hc : accessible c) by (apply (Hes (nm, c)); apply Hin; now left).
    assert (Ht : loop t = []) by (apply IHt; intros e He; apply Hin; now right).
    destruct c as [|r w es'].
    - cbn [removable andb]. exact Ht.
    - rewrite IH; [exact Ht| |exact Hc|discriminate].
      pose proof (node_size_in es true true (nm, Dir r w es') (Hin _ (or_introl eq_refl))).
      cbn [snd] in H. lia. }
  rewrite L by auto. reflexivity.
Qed.

Lemma Delete_shallow pw es :
  DeleteDirectory false pw (Dir true true es) =
  let left := filter (fun e => nonempty_dir (snd e)) es in
  if pw && match left with [] => true | _ => false end then None else Some (Dir true true left).
Proof.
  cbn [DeleteDirectory].
  set (loop := fix loop (l : list (bytes * node)) : list (bytes * node) :=
        match l with
        | [] => []
        | (nm, c) :: t => _
        end).
  assert (L : forall l, loop l = filter (fun e => nonempty_dir (snd e)) l).
  { induction l as [|[nm c] t IHt]; [reflexivity|]. cbn [loop filter snd].
    destruct c as [|r w [|e es']]; rewrite removable_iff; cbn [andb negb nonempty_dir]; now rewrite IHt. }
  rewrite L. unfold removable. cbv zeta. destruct (filter _ es); reflexivity.
Qed.

(** Loading text. *)
Lemma span_line l r : ~ In "010"%char l -> span_delim "010" (l ++ "010"%char :: r) = (l, Some r).
Proof.
  induction l as [|c l IH]; intros H; cbn [app span_delim].
  - now destruct (ascii_dec "010" "010").
  - destruct (ascii_dec c "010") as [->|]; [exfalso; apply H; now left|].
    rewrite IH; [reflexivity|intros X; apply H; now right].
Qed.
Lemma span_end l : ~ In "010"%char l -> span_delim "010" l = (l, None).
Proof.
  induction l as [|c l IH]; intros H; cbn [app span_delim]; [reflexivity|].
  destruct (ascii_dec c "010") as [->|]; [exfalso; apply H; now left|].
  rewrite IH; [reflexivity|intros X; apply H; now right].
Qed.

Definition line_out (l : bytes) : list bytes :=
  match Trim l with [] => [] | c :: _ => if ascii_dec c "#" then [] else [Trim l] end.

Lemma kept_step l ls out : kept ls out -> kept (l :: ls) (line_out l ++ out).
Proof.
  intros K. unfold line_out. pose proof (proj1 (trim_of_ok _ _) (Trim_trim_ok l)) as T.
  destruct (Trim l) as [|c t] eqn:E.
  - apply (kept_skip l []); auto.
  - destruct (ascii_dec c "#") as [->|Hn].
    + apply (kept_skip l ("#"%char :: t)); auto.
    + apply (kept_line l (c :: t)); auto; [discriminate|]. cbn. congruence.
Qed.

Lemma load_loop_ok : forall ls fuel prior, ls <> [] -> Forall (fun l => ~ In "010"%char l) ls -> length ls <= fuel ->
  exists out, kept ls out /\
    load_loop fuel {| content := join "010" ls; read_error := false |} false prior = Some (prior ++ out).
Proof.
  induction ls as [|l ls IH]; intros fuel prior Hn HF Hf; [congruence|].
  inversion HF as [|? ? Hl HF']; subst. destruct fuel as [|k]; [cbn in Hf; lia|].
  assert (S : forall o, (match Trim l with [] => o | c :: _ => if ascii_dec c "#" then o else o ++ [Trim l] end) =
                   o ++ line_out l).
  { intros x. unfold line_out. destruct (Trim l) as [|c t] eqn:E; [now rewrite app_nil_r|].
    destruct (ascii_dec c "#"); [now rewrite app_nil_r|reflexivity]. }
  destruct ls as [|l2 ls].
  - exists (line_out l ++ []). split; [apply kept_step; constructor|].
    cbn [load_loop join content read_error]. rewrite (span_end l Hl). rewrite S, app_nil_r. reflexivity.
  - change (join "010" (l :: l2 :: ls)) with (l ++ "010"%char :: join "010" (l2 :: ls)).
    cbn [load_loop content read_error]. rewrite (span_line l _ Hl). rewrite S.
    destruct (IH k (prior ++ line_out l) ltac:(discriminate) HF' ltac:(cbn in *; lia)) as [out [K E]].
    exists (line_out l ++ out). split; [now apply kept_step|]. rewrite E, app_assoc. reflexivity.
Qed.

Lemma load_loop_bad : forall fuel src out, load_loop fuel src true out = None.
Proof. induction fuel as [|k IH]; intros; [reflexivity|]. cbn. apply IH. Qed.

Lemma load_loop_error : forall fuel s out, load_loop fuel {| content := s; read_error := true |} false out = None.
Proof.
  induction fuel as [|k IH]; intros; [reflexivity|]. cbn [load_loop content read_error].
  destruct (span_delim "010" s) as [line [r|]]; [apply IH|apply load_loop_bad].
Qed.

Lemma kept_det ls a b : kept ls a -> kept ls b -> a = b.
Proof.
  intros K. revert b. induction K as [|l t ls out T Hn Hh K IH|l t ls out T Hs K IH]; intros b K2; inversion K2 as [|? t2 ? ? T2 ? ? K3|? t2 ? ? T2 ? K3]; subst.
  - reflexivity.
  - rewrite (trim_ok_unique l t t2 (proj2 (trim_of_ok _ _) T) (proj2 (trim_of_ok _ _) T2)). f_equal. now apply IH.
  - rewrite (trim_ok_unique l t t2 (proj2 (trim_of_ok _ _) T) (proj2 (trim_of_ok _ _) T2)) in *. tauto.
  - rewrite (trim_ok_unique l t t2 (proj2 (trim_of_ok _ _) T) (proj2 (trim_of_ok _ _) T2)) in *. tauto.
  - now apply IH.
Qed.

Lemma Concat_dir o d core suf : dir_form o d ->
  ConcatFullName o (d ++ ["/"%char]) core suf = d ++ "/"%char :: core ++ (if suf then [] else "."%char :: suf).
Proof.
  intros [p [R [E|[E [Hn He]]]]].
  - destruct (Concat_char o _ p core suf R) as [q [[Ep ->]|[Hne _]]].
    + rewrite E. destruct d; discriminate.
    + rewrite E in Ep. apply app_inj_tail in Ep as [<- _]. reflexivity.
    + exfalso. apply Hne. rewrite E. exists d. reflexivity.
  - destruct (Concat_char o _ p core suf R) as [q [[Ep _]|[_ [Eq ->]]]].
    + now rewrite E.
    + exfalso. apply He. exists q. now rewrite <- E.
    + rewrite <- Eq, E. reflexivity.
Qed.

Lemma Append_parts o f a d core suf e deli : resolves o f a -> not_directory o a -> path_parts a d core suf ->
  suf <> [] -> dir_form o d ->
  AppendCoreFileName o f e deli = d ++ "/"%char :: (core ++ deli :: e) ++ "."%char :: suf.
Proof.
  intros R N P Hn D. unfold AppendCoreFileName.
  rewrite (GetPath_parts o f a d core suf R N P), (GetCore_parts o f a d core suf R P),
    (GetSuffix_parts o f a d core suf R P Hn). rewrite (Concat_dir o d _ _ D).
  destruct suf; [congruence|reflexivity].
Qed.

Lemma Prefix_parts o f a d core suf e deli : resolves o f a -> not_directory o a -> path_parts a d core suf ->
  suf <> [] -> dir_form o d ->
  PrefixCoreFileName o f e deli = d ++ "/"%char :: (e ++ deli :: core) ++ "."%char :: suf.
Proof.
  intros R N P Hn D. unfold PrefixCoreFileName.
  rewrite (GetPath_parts o f a d core suf R N P), (GetCore_parts o f a d core suf R P),
    (GetSuffix_parts o f a d core suf R P Hn). rewrite (Concat_dir o d _ _ D).
  destruct suf; [congruence|reflexivity].
Qed.
