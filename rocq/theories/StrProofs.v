From Coq Require Import ZArith Ascii String List Bool Lia ZifyBool ZifyNat.
From Verif Require Import Base StrModel StrSpec.
Import ListNotations.
Open Scope Z_scope.

Lemma beqb_eq a b : beqb a b = true <-> a = b.
Proof. unfold beqb. destruct (list_eq_dec ascii_dec a b); split; congruence. Qed.

Lemma beqb_refl a : beqb a a = true.
Proof. now apply beqb_eq. Qed.

(* ---------- split on a delimiter ---------- *)

Lemma span_delim_spec d s :
  let (f, r) := span_delim d s in
  ~ In d f /\ match r with None => s = f | Some t => s = f ++ d :: t end.
Proof.
  induction s as [|c t IH]; cbn [span_delim].
  - split; [intros []|reflexivity].
  - destruct (ascii_dec c d) as [->|Hne].
    + split; [intros []|reflexivity].
    + destruct (span_delim d t) as [f r]. destruct IH as [Hin Hr].
      split.
      * intros [E|E]; [congruence|auto].
      * destruct r as [t'|]; rewrite Hr; reflexivity.
Qed.

Definition split_ok (d : ascii) (s : bytes) (p : list bytes) : Prop :=
  Forall (fun f => ~ In d f) p /\
  ((s = [] /\ p = []) \/
   (s <> [] /\ p <> [] /\ ends_with d s /\ s = join d p ++ [d]) \/
   (s <> [] /\ p <> [] /\ ~ ends_with d s /\ s = join d p)).

Lemma ends_with_app d a b : b <> [] -> ends_with d (a ++ b) <-> ends_with d b.
Proof.
  intros Hb. split.
  - intros [s' E].
    destruct (exists_last Hb) as [b' [x ->]].
    rewrite app_assoc in E. apply app_inj_tail in E. destruct E as [_ ->].
    exists b'. reflexivity.
  - intros [s' ->]. exists (a ++ s'). now rewrite app_assoc.
Qed.

Lemma split_loop_ok d : forall fuel s, (length s <= fuel)%nat -> split_ok d s (split_loop fuel d s).
Proof.
  induction fuel as [|fuel IH]; intros s Hl.
  - destruct s; [|cbn in Hl; lia]. split; [constructor|left; auto].
  - cbn [split_loop]. destruct s as [|c t].
    { split; [constructor|left; auto]. }
    pose proof (span_delim_spec d (c :: t)) as Hs.
    destruct (span_delim d (c :: t)) as [f r]. destruct Hs as [Hin Hr].
    destruct r as [rest|].
    + assert (Hlen : (length rest <= fuel)%nat).
      { apply (f_equal (@length _)) in Hr. rewrite app_length in Hr. cbn [length] in Hr, Hl. lia. }
      specialize (IH rest Hlen). destruct IH as [HF HE].
      split; [constructor; auto|].
      rewrite Hr.
      destruct HE as [[-> Hp]|[[Hn [Hp [He E]]]|[Hn [Hp [He E]]]]].
      * rewrite Hp. right; left. repeat split.
        -- intros E. destruct f; discriminate E.
        -- discriminate.
        -- now exists f.
      * right; left. repeat split.
        -- intros E'. destruct f; discriminate E'.
        -- discriminate.
        -- apply (proj2 (ends_with_app d f (d :: rest) ltac:(discriminate))).
           change (d :: rest) with ([d] ++ rest).
           apply (proj2 (ends_with_app d [d] rest Hn)). exact He.
        -- destruct (split_loop fuel d rest) as [|q l]; [congruence|].
           cbn [join] in *. rewrite E at 1. rewrite <- app_assoc. reflexivity.
      * right; right. repeat split.
        -- intros E'. destruct f; discriminate E'.
        -- discriminate.
        -- intros E'. apply (proj1 (ends_with_app d f (d :: rest) ltac:(discriminate))) in E'.
           change (d :: rest) with ([d] ++ rest) in E'.
           apply (proj1 (ends_with_app d [d] rest Hn)) in E'. auto.
        -- destruct (split_loop fuel d rest) as [|q l]; [congruence|].
           cbn [join] in *. rewrite E at 1. reflexivity.
    + split; [constructor; auto|]. right; right.
      repeat split; try discriminate.
      * rewrite Hr. intros [s' E]. apply Hin. rewrite E. apply in_or_app. right. now left.
      * cbn. exact Hr.
Qed.

Lemma SplitString_d_ok s d : split_ok d s (SplitString_d s d).
Proof. apply split_loop_ok. apply le_n. Qed.

(* joining then splitting: uniqueness of the representation *)
Lemma app_delim_inj d (f g : bytes) : forall a b,
  ~ In d f -> ~ In d g -> f ++ d :: a = g ++ d :: b -> f = g /\ a = b.
Proof.
  revert g. induction f as [|x f IH]; intros g a b Hf Hg E; destruct g as [|y g]; cbn in *.
  - now inversion E.
  - inversion E; subst. exfalso; auto.
  - inversion E; subst. exfalso; auto.
  - inversion E as [[E1 E2]]. subst. apply IH in E2; intuition congruence.
Qed.

Lemma join_not_in (d : ascii) (f : bytes) : ~ In d f -> forall g a, f = g ++ d :: a -> False.
Proof. intros H g a ->. apply H. apply in_or_app. right; now left. Qed.

Lemma join_inj d : forall p q,
  Forall (fun f => ~ In d f) p -> Forall (fun f => ~ In d f) q ->
  p <> [] -> q <> [] -> join d p = join d q -> p = q.
Proof.
  induction p as [|x p IH]; intros q Hp Hq Hpn Hqn E; [congruence|].
  destruct q as [|y q]; [congruence|].
  inversion Hp as [|? ? Hx Hp']; inversion Hq as [|? ? Hy Hq']; subst.
  destruct p as [|x2 p]; destruct q as [|y2 q]; cbn [join] in E.
  - now subst.
  - exfalso. eapply join_not_in; [exact Hx|exact E].
  - exfalso. eapply join_not_in; [exact Hy|symmetry; exact E].
  - apply app_delim_inj in E; auto. destruct E as [-> E].
    f_equal. apply IH; auto; discriminate.
Qed.

(** Round trip in the other direction: pieces without the delimiter, the last
    one non-empty, are recovered. *)
Lemma split_join d p :
  Forall (fun f => ~ In d f) p -> p <> [] -> last p [] <> [] ->
  SplitString_d (join d p) d = p.
Proof.
  intros HF Hn Hl.
  assert (Hne : ~ ends_with d (join d p)).
  { clear Hn. induction p as [|x p IH]; [cbn in Hl; congruence|].
    inversion HF as [|? ? Hx HF']; subst.
    destruct p as [|y p].
    - cbn [join]. intros [s' E]. subst x. apply Hx. apply in_or_app; right; now left.
    - change (join d (x :: y :: p)) with (x ++ d :: join d (y :: p)). intros E.
      apply (proj1 (ends_with_app d x (d :: join d (y :: p)) ltac:(discriminate))) in E.
      change (d :: join d (y :: p)) with ([d] ++ join d (y :: p)) in E.
      assert (Hj : join d (y :: p) <> []).
      { cbn [last] in Hl. destruct p as [|z p]; cbn [join].
        - exact Hl.
        - intros E'. destruct y; discriminate E'. }
      apply (proj1 (ends_with_app d [d] _ Hj)) in E. revert E. apply IH; auto. }
  destruct (SplitString_d_ok (join d p) d) as [HF2 [[E1 E2]|[[_ [_ [E1 _]]]|[H1 [H2 [H3 H4]]]]]].
  - exfalso. destruct p as [|x p]; [congruence|].
    destruct p as [|y p]; cbn [join last] in *; [congruence|].
    destruct x; discriminate E1.
  - exfalso; auto.
  - symmetry. apply join_inj with (d := d); auto.
Qed.

(* ---------- whitespace split ---------- *)

Lemma skip_ws_spec s : exists g, s = g ++ skip_ws s /\ all_space g /\
  (skip_ws s = [] \/ exists c t, skip_ws s = c :: t /\ isspace c = false).
Proof.
  induction s as [|c t IH]; cbn [skip_ws].
  - exists []. repeat split; [constructor|now left].
  - destruct (isspace c) eqn:Hc.
    + destruct IH as [g [E [Hg Hr]]]. exists (c :: g). cbn. rewrite <- E.
      repeat split; auto. constructor; auto.
    + exists []. repeat split; [constructor|]. right. eauto.
Qed.

Lemma skip_ws_app g s : all_space g -> skip_ws (g ++ s) = skip_ws s.
Proof. induction 1 as [|c g Hc Hg IH]; cbn; [reflexivity|now rewrite Hc]. Qed.

Lemma skip_ws_all g : all_space g -> skip_ws g = [].
Proof. intros H. rewrite <- (app_nil_r g), skip_ws_app; auto. Qed.

Lemma span_word_app w rest : no_space w ->
  (rest = [] \/ exists c t, rest = c :: t /\ isspace c = true) ->
  span_word (w ++ rest) = (w, rest).
Proof.
  intros Hw Hr. induction Hw as [|c w Hc Hw IH]; cbn.
  - destruct Hr as [->|[c [t [-> Hc]]]]; cbn; [reflexivity|now rewrite Hc].
  - now rewrite Hc, IH.
Qed.

Lemma extract_blank f g : all_space g -> extract f g = (f, [], true).
Proof. intros H. unfold extract. now rewrite (skip_ws_all g H). Qed.

Lemma extract_word f g w rest :
  all_space g -> w <> [] -> no_space w ->
  (rest = [] \/ exists c t, rest = c :: t /\ isspace c = true) ->
  extract f (g ++ w ++ rest) = (w, rest, match rest with [] => true | _ => false end).
Proof.
  intros Hg Hn Hw Hr. unfold extract. rewrite (skip_ws_app g _ Hg).
  destruct w as [|c w]; [congruence|].
  assert (Hc : isspace c = false) by (inversion Hw; auto).
  cbn [app skip_ws]. rewrite Hc.
  change (c :: w ++ rest) with ((c :: w) ++ rest).
  rewrite (span_word_app _ _ Hw Hr). reflexivity.
Qed.

(** the list the loop produces: field then the remaining words, the last one
    repeated if there is a trailing blank *)
Definition with_trailing (ws : list bytes) (s : bytes) (blank : bool) : list bytes :=
  if blank then ws ++ [last ws []] else ws.

Definition endsb (s : bytes) : bool :=
  match rev s with c :: _ => isspace c | [] => false end.

Lemma endsb_app a b : b <> [] -> endsb (a ++ b) = endsb b.
Proof.
  intros H. unfold endsb. rewrite rev_app_distr.
  destruct (rev b) eqn:E; [|reflexivity].
  apply (f_equal (@rev _)) in E. rewrite rev_involutive in E. cbn in E. congruence.
Qed.

Lemma endsb_all_space g : all_space g -> g <> [] -> endsb g = true.
Proof.
  intros H Hn. destruct (exists_last Hn) as [g' [c ->]]. unfold endsb.
  rewrite rev_app_distr. cbn.
  apply Forall_app in H. destruct H as [_ H]. now inversion H.
Qed.

Lemma endsb_no_space w : no_space w -> endsb w = false.
Proof.
  intros H. unfold endsb. destruct (rev w) as [|c r] eqn:E; [reflexivity|].
  apply (f_equal (@rev _)) in E. rewrite rev_involutive in E. cbn in E. subst w.
  apply Forall_app in H. destruct H as [_ H]. now inversion H.
Qed.

Lemma endsb_iff s : endsb s = true <-> ends_blank s.
Proof.
  unfold endsb, ends_blank. split.
  - intros H. destruct (rev s) as [|c r] eqn:E; [discriminate|].
    apply (f_equal (@rev _)) in E. rewrite rev_involutive in E. cbn in E. eauto.
  - intros [s' [c [-> Hc]]]. rewrite rev_app_distr. exact Hc.
Qed.

Lemma words_loop_ok : forall s ws, Words s ws -> forall fuel field,
  (length s < fuel)%nat ->
  s <> [] ->
  words_loop fuel field s false =
  field :: (match ws with [] => [field] | _ => if endsb s then ws ++ [last ws []] else ws end).
Proof.
  induction 1 as [g Hg|g w rest ws Hg Hn Hw Hr HW IH]; intros fuel field Hf Hs.
  - destruct fuel as [|fuel]; [lia|]. cbn [words_loop].
    rewrite (extract_blank field g Hg). destruct fuel; reflexivity.
  - destruct fuel as [|fuel]; [lia|]. cbn [words_loop].
    rewrite (extract_word field g w rest Hg Hn Hw Hr).
    f_equal. destruct rest as [|c t].
    + inversion HW as [g0 Hg0 E1 E2|g0 w0 r0 ws0 H0 H1 H2 H3 H4 E1 E2]; subst.
      * rewrite app_nil_r, (endsb_app g w Hn), (endsb_no_space w Hw).
        destruct fuel; reflexivity.
      * exfalso. destruct g0; [destruct w0; [congruence|discriminate E1]|discriminate E1].
    + rewrite IH.
      * assert (HE : endsb (g ++ w ++ c :: t) = endsb (c :: t)).
        { rewrite app_assoc. apply endsb_app. discriminate. }
        rewrite HE. destruct ws as [|w2 ws].
        -- inversion HW; subst. rewrite endsb_all_space; auto; discriminate.
        -- destruct (endsb (c :: t)); [|reflexivity].
           rewrite <- app_comm_cons. reflexivity.
      * rewrite !app_length in Hf. destruct w; [congruence|]. cbn [length] in *. lia.
      * discriminate.
Qed.

Lemma SplitString_char s ws : Words s ws ->
  SplitString s = match ws with
                  | [] => [[]]
                  | _ => if endsb s then ws ++ [last ws []] else ws
                  end.
Proof.
  intros HW. unfold SplitString. inversion HW as [g Hg E1 E2|g w rest ws' Hg Hn Hw Hr HW' E1 E2]; subst.
  - rewrite (extract_blank [] s Hg). reflexivity.
  - rewrite (extract_word [] g w rest Hg Hn Hw Hr).
    destruct rest as [|c t].
    + inversion HW' as [g0 Hg0 E1 E2|g0 w0 r0 ws0 H0 H1 H2 H3 H4 E1 E2]; subst.
      * rewrite app_nil_r, (endsb_app g w Hn), (endsb_no_space w Hw). reflexivity.
      * exfalso. destruct g0; [destruct w0; [congruence|discriminate E1]|discriminate E1].
    + assert (HE : endsb (g ++ w ++ c :: t) = endsb (c :: t)).
      { rewrite app_assoc. apply endsb_app. discriminate. }
      rewrite HE, (words_loop_ok _ _ HW').
      * destruct ws' as [|w2 ws'].
        -- inversion HW'; subst. rewrite endsb_all_space; auto; discriminate.
        -- destruct (endsb (c :: t)); reflexivity.
      * rewrite !app_length. cbn [length]. lia.
      * discriminate.
Qed.

Lemma Words_exists : forall n s, (length s <= n)%nat -> exists ws, Words s ws.
Proof.
  induction n as [|n IH]; intros s Hl.
  - destruct s; [|cbn in Hl; lia]. exists []. constructor. constructor.
  - destruct (skip_ws_spec s) as [g [E [Hg Hr]]].
    destruct (skip_ws s) as [|c t] eqn:Es.
    + exists []. constructor. rewrite E, app_nil_r. exact Hg.
    + destruct Hr as [Hr|[c' [t' [Ec Hc]]]]; [discriminate|]. inversion Ec; subst c' t'. clear Ec.
      assert (Hspan : exists w rest, c :: t = w ++ rest /\ w <> [] /\ no_space w /\
                (rest = [] \/ exists c t, rest = c :: t /\ isspace c = true)).
      { clear E Es Hg Hl IH. revert c Hc. induction t as [|c2 t IHt]; intros c Hc.
        - exists [c], []. repeat split; auto; [discriminate|]. constructor; auto.
        - destruct (isspace c2) eqn:Hc2.
          + exists [c], (c2 :: t). repeat split; auto; [discriminate| |].
            * constructor; auto.
            * right; eauto.
          + destruct (IHt c2 Hc2) as [w [rest [E [Hn [Hw Hr]]]]].
            exists (c :: w), rest. cbn. rewrite <- E. repeat split; auto; [discriminate|].
            constructor; auto. }
      destruct Hspan as [w [rest [E2 [Hn [Hw Hr2]]]]].
      destruct (IH rest) as [ws HWs].
      { apply (f_equal (@length _)) in E. apply (f_equal (@length _)) in E2.
        rewrite app_length in E, E2. destruct w; [congruence|]. cbn [length] in *. lia. }
      exists (w :: ws). rewrite E, E2. constructor; auto.
Qed.

Lemma Words_nonblank s ws : Words s ws -> ws = [] -> all_space s.
Proof. intros H ->. inversion H; auto. Qed.

(* ---------- trim ---------- *)

Lemma find_first_not_spec s :
  match find_first_not s with
  | None => Forall (fun c => in_trim_set c = true) s
  | Some n => exists a c b, s = a ++ c :: b /\ length a = n /\
                Forall (fun c => in_trim_set c = true) a /\ in_trim_set c = false
  end.
Proof.
  induction s as [|c t IH]; cbn [find_first_not]; [constructor|].
  destruct (in_trim_set c) eqn:Hc.
  - destruct (find_first_not t) as [n|].
    + destruct IH as [a [c' [b [-> [Hl [Ha Hc']]]]]].
      exists (c :: a), c', b. repeat split; cbn; auto.
    + constructor; auto.
  - exists [], c, t. repeat split; auto.
Qed.

Lemma find_last_not_spec s :
  match find_last_not s with
  | None => Forall (fun c => in_trim_set c = true) s
  | Some n => exists a c b, s = a ++ c :: b /\ length a = n /\
                Forall (fun c => in_trim_set c = true) b /\ in_trim_set c = false
  end.
Proof.
  induction s as [|c t IH]; cbn [find_last_not]; [constructor|].
  destruct (find_last_not t) as [n|].
  - destruct IH as [a [c' [b [-> [Hl [Hb Hc']]]]]].
    exists (c :: a), c', b. repeat split; cbn; auto.
  - destruct (in_trim_set c) eqn:Hc; [constructor; auto|].
    exists [], c, t. repeat split; auto.
Qed.

Definition trimmed (s : bytes) : Prop :=
  forall c, (forall t, s = c :: t -> in_trim_set c = false) /\
            (forall t, s = t ++ [c] -> in_trim_set c = false).

Definition trim_ok (s r : bytes) : Prop :=
  exists a b, s = a ++ r ++ b /\
    Forall (fun c => in_trim_set c = true) a /\ Forall (fun c => in_trim_set c = true) b /\
    trimmed r.

Lemma trimmed_intro c1 t1 t2 c2 :
  c1 :: t1 = t2 ++ [c2] -> in_trim_set c1 = false -> in_trim_set c2 = false -> trimmed (c1 :: t1).
Proof.
  intros E H1 H2 c. split.
  - intros t E'. inversion E'; subst. auto.
  - intros t E'. rewrite E in E'. apply app_inj_tail in E'. destruct E' as [_ <-]. auto.
Qed.

Lemma Trim_trim_ok s : trim_ok s (Trim s).
Proof.
  unfold Trim. destruct s as [|x s0] eqn:Es.
  { exists [], []. repeat split; try constructor; intros; [discriminate|destruct t; discriminate]. }
  rewrite <- Es. clear x s0 Es.
  pose proof (find_first_not_spec s) as H1.
  destruct (find_first_not s) as [n|].
  - destruct H1 as [a [c [b [-> [Hl [Ha Hc]]]]]].
    rewrite <- Hl, skipn_app, skipn_all, Nat.sub_diag. cbn [app skipn].
    pose proof (find_last_not_spec (c :: b)) as H2.
    destruct (find_last_not (c :: b)) as [m|].
    + destruct H2 as [a2 [c2 [b2 [E [Hl2 [Hb2 Hc2]]]]]].
      rewrite E. rewrite <- Hl2.
      replace (firstn (S (length a2)) (a2 ++ c2 :: b2)) with (a2 ++ [c2]).
      2:{ replace (a2 ++ c2 :: b2) with ((a2 ++ [c2]) ++ b2) by (rewrite <- app_assoc; reflexivity).
          replace (S (length a2)) with (length (a2 ++ [c2])) by (rewrite app_length; cbn; lia).
          rewrite firstn_app, firstn_all, Nat.sub_diag. cbn. now rewrite app_nil_r. }
      exists a, b2. repeat split; auto.
      * rewrite <- !app_assoc. reflexivity.
      * intros t E'. destruct a2 as [|y a2]; cbn in *; inversion E'; subst; inversion E; subst; auto.
      * intros t E'. apply app_inj_tail in E'. destruct E' as [_ <-]. auto.
    + exfalso. inversion H2; congruence.
  - cbn. exists s, []. rewrite app_nil_r. repeat split; auto; intros; [discriminate|destruct t; discriminate].
Qed.

Lemma TrimSpaces_trim_ok s : trim_ok s (TrimSpaces s).
Proof.
  unfold TrimSpaces.
  pose proof (find_first_not_spec s) as H1. pose proof (find_last_not_spec s) as H2.
  destruct (find_first_not s) as [n|].
  - destruct H1 as [a [c [b [E [Hl [Ha Hc]]]]]].
    destruct (find_last_not s) as [m|].
    + destruct H2 as [a2 [c2 [b2 [E2 [Hl2 [Hb2 Hc2]]]]]].
      rewrite E in E2.
      (* compare the two decompositions *)
      assert (Hle : (length a <= length a2)%nat).
      { destruct (le_lt_dec (length a) (length a2)) as [H|H]; auto. exfalso.
        (* c2 lies in a *)
        assert (Hn : nth_error (a2 ++ c2 :: b2) (length a2) = Some c2).
        { rewrite nth_error_app2, Nat.sub_diag; [reflexivity|lia]. }
        rewrite <- E2, nth_error_app1 in Hn by lia.
        apply nth_error_In in Hn. rewrite Forall_forall in Ha. apply Ha in Hn. congruence. }
      assert (Hmid : exists mid, c :: b = mid ++ b2 /\ a2 ++ [c2] = a ++ mid).
      { exists (skipn (length a) (a2 ++ [c2])). split.
        - apply (f_equal (skipn (length a))) in E2.
          rewrite skipn_app, skipn_all, Nat.sub_diag in E2. cbn [app skipn] in E2. rewrite E2.
          replace (a2 ++ c2 :: b2) with ((a2 ++ [c2]) ++ b2) by (rewrite <- app_assoc; reflexivity).
          rewrite skipn_app. f_equal.
          replace (length a - length (a2 ++ [c2]))%nat with 0%nat; [reflexivity|].
          rewrite app_length; cbn; lia.
        - assert (Ha' : a = firstn (length a) (a2 ++ [c2])).
          { apply (f_equal (firstn (length a))) in E2.
            rewrite firstn_app, firstn_all, Nat.sub_diag in E2. cbn [firstn] in E2.
            rewrite app_nil_r in E2. rewrite E2 at 1.
            replace (a2 ++ c2 :: b2) with ((a2 ++ [c2]) ++ b2) by (rewrite <- app_assoc; reflexivity).
            rewrite firstn_app.
            replace (length a - length (a2 ++ [c2]))%nat with 0%nat by (rewrite app_length; cbn; lia).
            cbn. now rewrite app_nil_r. }
          rewrite Ha' at 1. rewrite firstn_skipn. reflexivity. }
      destruct Hmid as [mid [Em1 Em2]].
      assert (Hres : firstn (m - n + 1) (skipn n s) = mid).
      { rewrite <- Hl, E, skipn_app, skipn_all, Nat.sub_diag. cbn [app skipn]. rewrite Em1.
        replace (m - length a + 1)%nat with (length mid).
        - rewrite firstn_app, firstn_all, Nat.sub_diag. cbn. now rewrite app_nil_r.
        - apply (f_equal (@length _)) in Em2. rewrite !app_length in Em2. cbn in Em2. lia. }
      rewrite Hres. exists a, b2. repeat split; auto.
      * rewrite E, Em1. reflexivity.
      * intros t E'. rewrite E' in Em1. cbn in Em1. injection Em1 as Em1a Em1b. congruence.
      * intros t E'. rewrite E' in Em2. rewrite app_assoc in Em2. apply app_inj_tail in Em2.
        destruct Em2 as [_ Em2]. congruence.
    + exfalso. rewrite E in H2. apply Forall_app in H2. destruct H2 as [_ H2]. inversion H2; congruence.
  - exists s, []. cbn. rewrite app_nil_r.
    repeat split; auto; intros; [discriminate|destruct t; discriminate].
Qed.

Lemma trim_ok_unique s r1 r2 : trim_ok s r1 -> trim_ok s r2 -> r1 = r2.
Proof.
  intros [a1 [b1 [E1 [Ha1 [Hb1 T1]]]]] [a2 [b2 [E2 [Ha2 [Hb2 T2]]]]].
  (* strip the common prefix *)
  assert (G : forall (a1 a2 x y : bytes), a1 ++ x = a2 ++ y ->
            Forall (fun c => in_trim_set c = true) a1 -> Forall (fun c => in_trim_set c = true) a2 ->
            (forall c t, x = c :: t -> in_trim_set c = false) ->
            (forall c t, y = c :: t -> in_trim_set c = false) ->
            x = y).
  { clear. induction a1 as [|h a1 IH]; intros a2 x y E H1 H2 Hx Hy; destruct a2 as [|h2 a2]; cbn in E.
    - auto.
    - inversion H2; subst. specialize (Hx h2 (a2 ++ y) eq_refl). congruence.
    - inversion H1; subst. specialize (Hy h (a1 ++ x) eq_refl). congruence.
    - inversion E; subst. inversion H1; inversion H2; subst. eapply IH; eauto. }
  destruct r1 as [|c1 t1]; destruct r2 as [|c2 t2].
  - reflexivity.
  - exfalso. subst s. cbn in E2.
    assert (In c2 (a1 ++ b1)) by (rewrite E2; apply in_or_app; right; now left).
    assert (Forall (fun c => in_trim_set c = true) (a1 ++ b1)) by (apply Forall_app; auto).
    rewrite Forall_forall in H0. apply H0 in H.
    destruct (T2 c2) as [T _]. specialize (T t2 eq_refl). congruence.
  - exfalso. subst s. cbn in E2.
    assert (In c1 (a2 ++ b2)) by (rewrite <- E2; apply in_or_app; right; now left).
    assert (Forall (fun c => in_trim_set c = true) (a2 ++ b2)) by (apply Forall_app; auto).
    rewrite Forall_forall in H0. apply H0 in H.
    destruct (T1 c1) as [T _]. specialize (T t1 eq_refl). congruence.
  - rewrite E1 in E2. apply G in E2; auto.
    + (* now suffixes: reverse *)
      apply (f_equal (@rev _)) in E2. rewrite !rev_app_distr in E2.
      apply G in E2.
      * apply (f_equal (@rev _)) in E2. now rewrite !rev_involutive in E2.
      * now apply Forall_rev.
      * now apply Forall_rev.
      * intros c t E. apply (f_equal (@rev _)) in E. rewrite rev_involutive in E. cbn in E.
        destruct (T1 c) as [_ T]. apply (T _ E).
      * intros c t E. apply (f_equal (@rev _)) in E. rewrite rev_involutive in E. cbn in E.
        destruct (T2 c) as [_ T]. apply (T _ E).
    + intros c t E. cbn in E. inversion E; subst. destruct (T1 c) as [T _]. eauto.
    + intros c t E. cbn in E. inversion E; subst. destruct (T2 c) as [T _]. eauto.
Qed.

Lemma trim_ok_self r : trimmed r -> trim_ok r r.
Proof. intros H. exists [], []. rewrite app_nil_r. repeat split; auto; apply H. Qed.

Lemma Trim_idem s : Trim (Trim s) = Trim s.
Proof.
  apply trim_ok_unique with (s := Trim s); [apply Trim_trim_ok|].
  apply trim_ok_self. destruct (Trim_trim_ok s) as [a [b [_ [_ [_ T]]]]]. exact T.
Qed.

(* ---------- case folding ---------- *)

Lemma toupper_code c : code (toupper c) = if (97 <=? code c) && (code c <=? 122) then code c - 32 else code c.
Proof.
  unfold toupper. destruct ((97 <=? code c) && (code c <=? 122)) eqn:E; [|reflexivity].
  unfold code in *. rewrite nat_ascii_embedding; [lia|].
  pose proof (nat_ascii_bounded c). lia.
Qed.

Lemma code_inj a b : code a = code b -> a = b.
Proof.
  unfold code. intros H. assert (nat_of_ascii a = nat_of_ascii b) by lia.
  rewrite <- (ascii_nat_embedding a), <- (ascii_nat_embedding b). congruence.
Qed.

Lemma toupper_same a b : toupper a = toupper b <-> same_letter a b.
Proof.
  unfold same_letter. split.
  - intros E. apply (f_equal code) in E. rewrite !toupper_code in E.
    destruct ((97 <=? code a) && (code a <=? 122)) eqn:Ea;
    destruct ((97 <=? code b) && (code b <=? 122)) eqn:Eb.
    + left. apply code_inj. lia.
    + right; left. lia.
    + right; right. lia.
    + left. now apply code_inj.
  - intros H. apply code_inj. rewrite !toupper_code.
    destruct H as [->|[[H1 H2]|[H1 H2]]]; [reflexivity| |].
    + destruct ((97 <=? code a) && (code a <=? 122)) eqn:Ea; destruct ((97 <=? code b) && (code b <=? 122)) eqn:Eb; lia.
    + destruct ((97 <=? code a) && (code a <=? 122)) eqn:Ea; destruct ((97 <=? code b) && (code b <=? 122)) eqn:Eb; lia.
Qed.

Lemma StringMatch_iff a b : StringMatch a b = true <-> Forall2 same_letter a b.
Proof.
  unfold StringMatch, GetUpper. rewrite beqb_eq. revert b.
  induction a as [|x a IH]; intros [|y b]; cbn; split; intros H; try discriminate; try (inversion H; fail); auto.
  - inversion H. constructor; [now apply toupper_same|now apply IH].
  - inversion H; subst. f_equal; [now apply toupper_same|now apply IH].
Qed.

Lemma toupper_idem c : toupper (toupper c) = toupper c.
Proof.
  apply code_inj. rewrite !toupper_code.
  destruct ((97 <=? code c) && (code c <=? 122)) eqn:E.
  - destruct ((97 <=? code c - 32) && (code c - 32 <=? 122)) eqn:E2; lia.
  - rewrite E. reflexivity.
Qed.

Lemma GetUpper_idem s : GetUpper (GetUpper s) = GetUpper s.
Proof. unfold GetUpper. rewrite map_map. apply map_ext. apply toupper_idem. Qed.

(* ---------- integers ---------- *)

Lemma digit_code z : 0 <= z < 10 -> code (digit z) = 48 + z.
Proof. intros H. unfold code, digit. rewrite nat_ascii_embedding; lia. Qed.

Lemma digit_isdigit z : 0 <= z < 10 -> isdigit (digit z) = true.
Proof. intros H. unfold isdigit. rewrite digit_code by auto. lia. Qed.

Lemma value_of_app a b : forall acc, value_of acc (a ++ b) = value_of (value_of acc a) b.
Proof. induction a as [|c a IH]; intros acc; cbn; auto. Qed.

Lemma dec_loop_app : forall fuel z acc, dec_loop fuel z acc = dec_loop fuel z [] ++ acc.
Proof.
  induction fuel as [|f IH]; intros z acc; cbn [dec_loop]; [reflexivity|].
  destruct (z <? 10); [reflexivity|].
  rewrite IH. rewrite (IH _ [_]). rewrite <- app_assoc. reflexivity.
Qed.

Lemma dec_loop_spec : forall fuel z, 0 <= z < 2 ^ Z.of_nat fuel ->
  (fuel = 0%nat /\ z = 0) \/
  (let d := dec_loop fuel z [] in
   d <> [] /\ Forall (fun c => isdigit c = true) d /\ value_of 0 d = z /\
   (hd_error d = Some "0"%char -> d = ["0"%char]) /\ (z = 0 -> d = ["0"%char])).
Proof.
  induction fuel as [|f IH]; intros z Hz.
  - left. cbn in Hz. split; lia.
  - right. cbn zeta. cbn [dec_loop].
    destruct (z <? 10) eqn:E.
    + assert (Hd : 0 <= z < 10) by lia. repeat split.
      * discriminate.
      * constructor; [now apply digit_isdigit|constructor].
      * cbn. rewrite digit_code by auto. lia.
      * cbn. intros H. inversion H. congruence.
      * intros ->. reflexivity.
    + assert (Hq : 0 <= z / 10 < 2 ^ Z.of_nat f).
      { rewrite Nat2Z.inj_succ, Z.pow_succ_r in Hz by lia.
        split; [apply Z.div_pos; lia|]. apply Z.div_lt_upper_bound; lia. }
      assert (Hm : 0 <= z mod 10 < 10) by (apply Z.mod_pos_bound; lia).
      assert (Hq0 : z / 10 <> 0). { intros H. apply Z.div_small_iff in H; lia. }
      destruct (IH _ Hq) as [[_ H]|H]; [congruence|].
      cbn zeta in H. destruct H as [H1 [H2 [H3 [H4 H5]]]].
      rewrite dec_loop_app. repeat split.
      * intros H. apply app_eq_nil in H. destruct H; discriminate.
      * apply Forall_app. split; auto. constructor; [now apply digit_isdigit|constructor].
      * rewrite value_of_app, H3. cbn. rewrite digit_code by auto.
        pose proof (Z.div_mod z 10). lia.
      * intros H. exfalso.
        destruct (dec_loop f (z / 10) []) as [|c t] eqn:Ed; [congruence|].
        cbn in H. specialize (H4 H). rewrite H4 in H3. change (value_of 0 ["0"%char]) with 0 in H3. lia.
      * lia.
Qed.

Lemma dec_spec z : 0 <= z ->
  let d := dec z in
  d <> [] /\ Forall (fun c => isdigit c = true) d /\ value_of 0 d = z /\
  (hd_error d = Some "0"%char -> d = ["0"%char]) /\ (z = 0 -> d = ["0"%char]).
Proof.
  intros Hz. unfold dec.
  destruct (dec_loop_spec (S (Z.to_nat (Z.log2 z))) z) as [[H _]|H].
  - split; [lia|]. rewrite Nat2Z.inj_succ, Z2Nat.id by apply Z.log2_nonneg.
    destruct (Z.eq_dec z 0) as [->|Hn]; [cbn; lia|]. apply Z.log2_spec. lia.
  - discriminate.
  - exact H.
Qed.

Lemma digits_all : forall s acc, Forall (fun c => isdigit c = true) s -> digits acc s = (value_of acc s, []).
Proof.
  induction s as [|c s IH]; intros acc H; cbn; [reflexivity|].
  inversion H; subst. rewrite H2. apply IH. auto.
Qed.

Lemma isdigit_code c : isdigit c = true -> 48 <= code c <= 57.
Proof. unfold isdigit. lia. Qed.

Lemma isdigit_not_space c : isdigit c = true -> isspace c = false.
Proof. intros H. apply isdigit_code in H. unfold isspace. lia. Qed.

Lemma strtol_canonical s z : canonical s z -> in_long z -> strtol s = (z, []).
Proof.
  intros [[d [-> [Hz [Hn [HF [Hv Hl]]]]]]|[d [-> [Hz [Hn [HF [Hv Hl]]]]]]] Hr; unfold strtol, in_long in *.
  - destruct d as [|c t]; [congruence|].
    assert (Hc : isdigit c = true) by (inversion HF; auto).
    cbn [skip_ws]. rewrite (isdigit_not_space c Hc).
    pose proof (isdigit_code c Hc) as Hcc.
    destruct (ascii_dec c "-") as [->|_]; [vm_compute in Hcc; intuition congruence|].
    destruct (ascii_dec c "+") as [->|_]; [vm_compute in Hcc; intuition congruence|].
    rewrite Hc, digits_all by auto. rewrite Hv. f_equal. unfold LONG_MIN, LONG_MAX in *. lia.
  - cbn [skip_ws]. change (isspace "-") with false. cbn iota.
    destruct (ascii_dec "-" "-") as [_|H]; [|congruence].
    destruct d as [|c t]; [congruence|].
    assert (Hc : isdigit c = true) by (inversion HF; auto).
    rewrite Hc, digits_all by auto. rewrite Hv. f_equal. unfold LONG_MIN, LONG_MAX in *. lia.
Qed.

Lemma itoa_canonical z : canonical (itoa z) z.
Proof.
  unfold itoa. destruct (z <? 0) eqn:E.
  - right. destruct (dec_spec (- z)) as [H1 [H2 [H3 [H4 H5]]]]; [lia|].
    exists (dec (- z)). repeat split; auto; try lia.
    intros H. specialize (H4 H). rewrite H4 in H3. change (value_of 0 ["0"%char]) with 0 in H3. lia.
  - left. destruct (dec_spec z) as [H1 [H2 [H3 [H4 H5]]]]; [lia|].
    exists (dec z). repeat split; auto; lia.
Qed.

Lemma wrap32_id z : in_int z -> wrap32 z = z.
Proof. unfold in_int, wrap32, INT_MIN, INT_MAX. intros H. rewrite Z.mod_small; lia. Qed.

Lemma wrap32_range z : in_int (wrap32 z).
Proof. unfold in_int, wrap32, INT_MIN, INT_MAX. pose proof (Z.mod_pos_bound (z + 2147483648) 4294967296). lia. Qed.

Lemma IsInt_itoa z : in_int z -> IsInt (itoa z) = (z, true).
Proof.
  intros H. unfold IsInt.
  rewrite (strtol_canonical (itoa z) z (itoa_canonical z)).
  - rewrite wrap32_id by auto. rewrite beqb_refl. reflexivity.
  - unfold in_int, in_long, INT_MIN, INT_MAX, LONG_MIN, LONG_MAX in *. lia.
Qed.

Lemma IsInt64_itoa z : in_long z -> IsInt64 (itoa z) = (z, true).
Proof.
  intros H. unfold IsInt64.
  rewrite (strtol_canonical (itoa z) z (itoa_canonical z) H). rewrite beqb_refl. reflexivity.
Qed.

(* value of canonical text is unique: needed for the converse *)
Lemma value_of_mono : forall s a b, Forall (fun c => isdigit c = true) s -> a < b -> value_of a s < value_of b s.
Proof.
  induction s as [|c s IH]; intros a b HF H; cbn; [auto|].
  inversion HF; subst. apply IH; auto. lia.
Qed.

Lemma value_of_bound : forall s a, Forall (fun c => isdigit c = true) s -> 0 <= a ->
  a * 10 ^ Z.of_nat (length s) <= value_of a s < (a + 1) * 10 ^ Z.of_nat (length s).
Proof.
  induction s as [|c s IH]; intros a HF Ha.
  - cbn. lia.
  - inversion HF; subst. apply isdigit_code in H1.
    cbn [value_of length]. rewrite Nat2Z.inj_succ, Z.pow_succ_r by lia.
    specialize (IH (a * 10 + (code c - 48)) H2 ltac:(lia)).
    assert (0 < 10 ^ Z.of_nat (length s)) by (apply Z.pow_pos_nonneg; lia). nia.
Qed.

Lemma value_of_inj_len : forall s t a, Forall (fun c => isdigit c = true) s -> Forall (fun c => isdigit c = true) t ->
  length s = length t -> 0 <= a -> value_of a s = value_of a t -> s = t.
Proof.
  induction s as [|c s IH]; intros t a HS HT Hl Ha E; destruct t as [|d t]; try discriminate; [reflexivity|].
  inversion HS as [|? ? Hc HS']; inversion HT as [|? ? Hd HT']; subst.
  apply isdigit_code in Hc. apply isdigit_code in Hd. cbn in E, Hl.
  pose proof (value_of_bound s (a * 10 + (code c - 48)) HS' ltac:(lia)) as B1.
  pose proof (value_of_bound t (a * 10 + (code d - 48)) HT' ltac:(lia)) as B2.
  assert (Hl' : length s = length t) by lia. rewrite Hl' in B1.
  assert (Hp : 0 < 10 ^ Z.of_nat (length t)) by (apply Z.pow_pos_nonneg; lia).
  assert (code c = code d) by nia.
  apply code_inj in H. subst d. f_equal. eapply IH; [auto|auto|lia| |exact E]. lia.
Qed.

Lemma canonical_nat_unique d e :
  d <> [] -> e <> [] ->
  Forall (fun c => isdigit c = true) d -> Forall (fun c => isdigit c = true) e ->
  (hd_error d = Some "0"%char -> d = ["0"%char]) -> (hd_error e = Some "0"%char -> e = ["0"%char]) ->
  value_of 0 d = value_of 0 e -> d = e.
Proof.
  assert (G : forall d e, d <> [] -> e <> [] ->
     Forall (fun c => isdigit c = true) d -> Forall (fun c => isdigit c = true) e ->
     (hd_error e = Some "0"%char -> e = ["0"%char]) ->
     value_of 0 d = value_of 0 e -> (length e <= length d)%nat).
  { clear. intros d e Hd He HD HE H0 E.
    destruct (le_lt_dec (length e) (length d)) as [|Hlt]; auto. exfalso.
    pose proof (value_of_bound d 0 HD ltac:(lia)) as B1.
    destruct e as [|c e]; [congruence|]. destruct d as [|c' d]; [congruence|].
    assert (Hc : c <> "0"%char).
    { intros ->. specialize (H0 eq_refl). inversion H0; subst. cbn in Hlt. lia. }
    inversion HE as [|? ? Hc1 HE']; subst. apply isdigit_code in Hc1.
    assert (Hcc : 49 <= code c).
    { assert (code c <> 48); [|lia]. intros Hx. apply Hc. apply code_inj. exact Hx. }
    change (value_of 0 (c :: e)) with (value_of (0 * 10 + (code c - 48)) e) in E.
    pose proof (value_of_bound e (0 * 10 + (code c - 48)) HE' ltac:(lia)) as B2.
    assert (10 ^ Z.of_nat (length (c' :: d)) <= 10 ^ Z.of_nat (length e)).
    { apply Z.pow_le_mono_r; cbn [length] in *; lia. }
    nia. }
  intros Hd He HD HE H0d H0e E.
  apply value_of_inj_len with (a := 0); auto; [|lia].
  apply Nat.le_antisymm; apply G; auto.
Qed.

Lemma canonical_unique s t z : canonical s z -> canonical t z -> s = t.
Proof.
  intros [[d [-> [Hz [Hn [HF [Hv Hl]]]]]]|[d [-> [Hz [Hn [HF [Hv Hl]]]]]]]
         [[e [-> [Hz' [Hn' [HF' [Hv' Hl']]]]]]|[e [-> [Hz' [Hn' [HF' [Hv' Hl']]]]]]]; try lia.
  - apply canonical_nat_unique; auto. congruence.
  - f_equal. apply canonical_nat_unique; auto; [intros H; contradiction|intros H; contradiction|congruence].
Qed.

Lemma IsInt_char s v : IsInt s = (v, true) <-> canonical s v /\ in_int v.
Proof.
  split.
  - unfold IsInt. destruct (strtol s) as [w r]. intros H. inversion H as [[E1 E2]].
    apply andb_true_iff in E2. destruct E2 as [_ E2]. apply beqb_eq in E2.
    split; [|apply wrap32_range]. rewrite <- E2 at 1. apply itoa_canonical.
  - intros [Hc Hi]. rewrite (canonical_unique s (itoa v) v Hc (itoa_canonical v)).
    now apply IsInt_itoa.
Qed.

Lemma strtol_long s : in_long (fst (strtol s)).
Proof.
  unfold strtol.
  set (p := match skip_ws s with
            | c :: t => if ascii_dec c "-" then (true, t) else if ascii_dec c "+" then (false, t) else (false, skip_ws s)
            | [] => (false, skip_ws s) end).
  destruct p as [neg s2]. destruct s2 as [|c t].
  - cbn. unfold in_long, LONG_MIN, LONG_MAX. lia.
  - destruct (isdigit c).
    + destruct (digits 0 (c :: t)) as [v r]. cbn [fst].
      unfold in_long, LONG_MIN, LONG_MAX. lia.
    + cbn. unfold in_long, LONG_MIN, LONG_MAX. lia.
Qed.

Lemma IsInt64_char s v : IsInt64 s = (v, true) <-> canonical s v /\ in_long v.
Proof.
  split.
  - unfold IsInt64. pose proof (strtol_long s) as HL. destruct (strtol s) as [w r]. cbn [fst] in HL.
    intros H. inversion H as [[E1 E2]]. subst w.
    apply andb_true_iff in E2. destruct E2 as [_ E2]. apply beqb_eq in E2.
    split; [|exact HL]. rewrite <- E2 at 1. apply itoa_canonical.
  - intros [Hc Hi]. rewrite (canonical_unique s (itoa v) v Hc (itoa_canonical v)).
    now apply IsInt64_itoa.
Qed.

Lemma strtoul_canonical s z : canonical s z -> 0 <= z <= ULONG_MAX -> strtoul s = (z, []).
Proof.
  intros [[d [-> [Hz [Hn [HF [Hv Hl]]]]]]|[d [-> [Hz [Hn [HF [Hv Hl]]]]]]] Hr; [|lia].
  unfold strtoul. destruct d as [|c t]; [congruence|].
  assert (Hc : isdigit c = true) by (inversion HF; auto).
  cbn [skip_ws]. rewrite (isdigit_not_space c Hc).
  pose proof (isdigit_code c Hc) as Hcc.
  destruct (ascii_dec c "-") as [->|_]; [vm_compute in Hcc; intuition congruence|].
  destruct (ascii_dec c "+") as [->|_]; [vm_compute in Hcc; intuition congruence|].
  rewrite Hc, digits_all by auto. rewrite Hv.
  destruct (z >? ULONG_MAX) eqn:E; [lia|reflexivity].
Qed.

Lemma strtoul_range s : 0 <= fst (strtoul s) <= ULONG_MAX.
Proof.
  unfold strtoul.
  set (p := match skip_ws s with
            | c :: t => if ascii_dec c "-" then (true, t) else if ascii_dec c "+" then (false, t) else (false, skip_ws s)
            | [] => (false, skip_ws s) end).
  destruct p as [neg s2]. destruct s2 as [|c t].
  - cbn. unfold ULONG_MAX. lia.
  - destruct (isdigit c) eqn:Hc.
    + assert (HG : forall s acc, 0 <= acc -> 0 <= fst (digits acc s)).
      { clear. induction s as [|c s IH]; intros acc H; cbn [digits]; [exact H|].
        destruct (isdigit c) eqn:E; [|exact H]. apply IH. apply isdigit_code in E. lia. }
      specialize (HG (c :: t) 0 ltac:(lia)).
      destruct (digits 0 (c :: t)) as [v r]. cbn [fst] in *.
      destruct (v >? ULONG_MAX) eqn:E; unfold ULONG_MAX in *; [lia|].
      destruct neg; [|lia]. pose proof (Z.mod_pos_bound (- v) 18446744073709551616). lia.
    + cbn. unfold ULONG_MAX. lia.
Qed.

Lemma utoa_canonical z : 0 <= z -> canonical (utoa z) z.
Proof.
  intros H. pose proof (itoa_canonical z) as Hc. unfold itoa in Hc. unfold utoa.
  destruct (z <? 0) eqn:E; [lia|exact Hc].
Qed.

Lemma IsUInt64_char s v : IsUInt64 s = (v, true) <-> canonical s v /\ 0 <= v <= ULONG_MAX.
Proof.
  split.
  - unfold IsUInt64. pose proof (strtoul_range s) as HL. destruct (strtoul s) as [w r]. cbn [fst] in HL.
    intros H. inversion H as [[E1 E2]]. subst w.
    apply andb_true_iff in E2. destruct E2 as [_ E2]. apply beqb_eq in E2.
    split; [|exact HL]. rewrite <- E2 at 1. apply utoa_canonical. lia.
  - intros [Hc Hi]. unfold IsUInt64. rewrite (strtoul_canonical s v Hc Hi).
    rewrite (canonical_unique s (utoa v) v Hc (utoa_canonical v ltac:(lia))) at 1.
    rewrite beqb_refl. reflexivity.
Qed.

(* ---------- statements used by StrProps ---------- *)

Lemma SplitString_words s : (exists c, In c s /\ isspace c = false) -> ~ ends_blank s ->
  Words s (SplitString s).
Proof.
  intros [c [Hc Hs]] Hb. destruct (Words_exists (length s) s (le_n _)) as [ws HW].
  rewrite (SplitString_char s ws HW).
  destruct ws as [|w ws].
  - exfalso. inversion HW as [g Hg E1 E2|]; subst. unfold all_space in Hg. rewrite Forall_forall in Hg.
    apply Hg in Hc. congruence.
  - destruct (endsb s) eqn:E; [apply endsb_iff in E; contradiction|exact HW].
Qed.

Lemma all_space_endsb s c : In c s -> all_space s -> endsb s = true.
Proof. intros H1 H2. apply endsb_all_space; auto. intros ->; inversion H1. Qed.

Lemma SplitString_trailing s ws : Words s ws -> ws <> [] -> ends_blank s ->
  SplitString s = ws ++ [last ws []].
Proof.
  intros HW Hn Hb. rewrite (SplitString_char s ws HW). apply endsb_iff in Hb. rewrite Hb.
  destruct ws; [congruence|reflexivity].
Qed.

Lemma SplitString_blank s : all_space s -> SplitString s = [[]].
Proof. intros H. rewrite (SplitString_char s [] (Words_nil s H)). reflexivity. Qed.

Lemma Words_det s ws1 ws2 : Words s ws1 -> Words s ws2 -> ws1 = ws2.
Proof.
  intros H1. revert ws2.
  assert (G1 : forall g w rest, all_space g -> w <> [] -> no_space w -> all_space (g ++ w ++ rest) -> False).
  { intros g w rest Hg Hn Hw H. apply Forall_app in H. destruct H as [_ H]. apply Forall_app in H.
    destruct H as [H _]. destruct w; [congruence|]. inversion H; inversion Hw; congruence. }
  assert (G2 : forall g1 g2 (x y : bytes), all_space g1 -> all_space g2 ->
     (forall c t, x = c :: t -> isspace c = false) -> (forall c t, y = c :: t -> isspace c = false) ->
     g1 ++ x = g2 ++ y -> x = y).
  { clear. induction g1 as [|h g1 IH]; intros g2 x y A1 A2 Hx Hy E; destruct g2 as [|h2 g2]; cbn in E.
    - auto.
    - inversion A2; subst. specialize (Hx h2 (g2 ++ y) eq_refl). congruence.
    - inversion A1; subst. specialize (Hy h (g1 ++ x) eq_refl). congruence.
    - inversion E; subst. inversion A1; inversion A2; subst. eapply IH; eauto. }
  assert (G3 : forall w1 w2 r1 r2, no_space w1 -> no_space w2 ->
     (r1 = [] \/ exists c t, r1 = c :: t /\ isspace c = true) ->
     (r2 = [] \/ exists c t, r2 = c :: t /\ isspace c = true) ->
     w1 ++ r1 = w2 ++ r2 -> w1 = w2 /\ r1 = r2).
  { clear. intros w1 w2 r1 r2 N1 N2 R1 R2 E.
    pose proof (span_word_app w1 r1 N1 R1) as S1. pose proof (span_word_app w2 r2 N2 R2) as S2.
    rewrite E in S1. rewrite S1 in S2. inversion S2; auto. }
  induction H1 as [g Hg|g w rest ws Hg Hn Hw Hr HW IH]; intros ws2 H2.
  - inversion H2 as [g2 Hg2 E1 E2|g2 w2 r2 ws' Hg2 Hn2 Hw2 Hr2 HW2 E1 E2]; [reflexivity|].
    subst g. exfalso. eapply G1; [exact Hg2|exact Hn2|exact Hw2|exact Hg].
  - inversion H2 as [g2 Hg2 E1 E2|g2 w2 r2 ws' Hg2 Hn2 Hw2 Hr2 HW2 E1 E2].
    + exfalso. subst. eapply G1; [exact Hg|exact Hn|exact Hw|exact Hg2].
    + assert (E3 : w2 ++ r2 = w ++ rest).
      { eapply G2; [exact Hg2|exact Hg| | |exact E1].
        - intros c t E. destruct w2; [congruence|]. cbn in E. inversion E; subst. inversion Hw2; auto.
        - intros c t E. destruct w; [congruence|]. cbn in E. inversion E; subst. inversion Hw; auto. }
      destruct (G3 w2 w r2 rest Hw2 Hw Hr2 Hr E3) as [-> ->].
      f_equal. now apply IH.
Qed.

Lemma StringMatch_equiv :
  (forall a, StringMatch a a = true) /\
  (forall a b, StringMatch a b = StringMatch b a) /\
  (forall a b c, StringMatch a b = true -> StringMatch b c = true -> StringMatch a c = true).
Proof.
  repeat split.
  - intros a. unfold StringMatch. apply beqb_refl.
  - intros a b. apply eq_true_iff_eq. unfold StringMatch. rewrite !beqb_eq. split; congruence.
  - intros a b c. unfold StringMatch. rewrite !beqb_eq. congruence.
Qed.

Lemma IsNumber_empty V (strtod : bytes -> V * nat) :
  (forall s, (snd (strtod s) <= length s)%nat) -> IsNumber V strtod [] = true.
Proof.
  intros H. unfold IsNumber, IsDouble. specialize (H []). destruct (strtod []) as [v n].
  cbn in *. destruct n; [reflexivity|lia].
Qed.

Lemma SplitString_words_refuted :
  exists s, (exists c, In c s /\ isspace c = false) /\ ~ Words s (SplitString s).
Proof.
  exists (str "a b "). split.
  - exists "a"%char. split; [now left|reflexivity].
  - intros H.
    assert (HW : Words (str "a b ") [str "a"; str "b"]).
    { apply (Words_cons [] (str "a") (str " b ") [str "b"]); [constructor|discriminate|repeat constructor| |].
      - right. eexists _, _. split; reflexivity.
      - apply (Words_cons (str " ") (str "b") (str " ") []); [repeat constructor|discriminate|repeat constructor| |].
        + right. eexists _, _. split; reflexivity.
        + apply Words_nil. repeat constructor. }
    pose proof (Words_det _ _ _ H HW) as E. vm_compute in E. discriminate E.
Qed.

(** The character classes. *)
Lemma trim_set_iff c : in_trim_set c = true <-> In c trim_chars.
Proof.
  split.
  - destruct c as [[] [] [] [] [] [] [] []]; intros H; try discriminate H; vm_compute; tauto.
  - intros [<-|[<-|[<-|[<-|[]]]]]; reflexivity.
Qed.

Lemma isspace_iff c : isspace c = true <-> In c space_chars.
Proof.
  split.
  - destruct c as [[] [] [] [] [] [] [] []]; intros H; try discriminate H; vm_compute; tauto.
  - intros [<-|[<-|[<-|[<-|[<-|[<-|[]]]]]]]; reflexivity.
Qed.

Lemma isdigit_iff c : isdigit c = true <-> In c digit_chars.
Proof.
  split.
  - destruct c as [[] [] [] [] [] [] [] []]; intros H; try discriminate H; vm_compute; tauto.
  - intros H. cbn [digit_chars In] in H. repeat (destruct H as [<-|H]; [reflexivity|]). destruct H.
Qed.

Lemma trim_of_ok s t : trim_ok s t <-> trim_of s t.
Proof.
  assert (W : forall l, Forall (fun c => in_trim_set c = true) l <-> Forall (fun c => In c trim_chars) l).
  { intros l. split; apply Forall_impl; intros c; apply trim_set_iff. }
  unfold trim_ok, trim_of, trimmed.
  split; intros [a [b [E [A [B H]]]]]; exists a, b; (split; [exact E|]); (split; [now apply W|]); (split; [now apply W|]).
  - intros c u Hc. apply trim_set_iff in Hc. destruct (H c) as [H1 H2].
    split; intros K; [apply H1 in K|apply H2 in K]; congruence.
  - intros c. split; intros u K; destruct (in_trim_set c) eqn:F; auto; apply trim_set_iff in F; destruct (H c u F); contradiction.
Qed.
