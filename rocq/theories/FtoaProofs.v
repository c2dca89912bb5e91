(** Proofs about the text of a double. *)
From Coq Require Import ZArith Reals Lra Lia Ascii String List Bool.
From Flocq Require Import Core BinarySingleNaN.
From Verif Require Import Base StrModel StrSpec StrProofs FloatModel NumModel NumSpec NumProofs FtoaModel FtoaSpec.
Import ListNotations.
Open Scope R_scope.

(** ** The digits *)
Lemma value_of_lt s : Forall (fun c => isdigit c = true) s -> (0 <= value_of 0 s < 10 ^ Z.of_nat (length s))%Z.
Proof.
  induction s as [|c s IH] using rev_ind; intros F. { cbn. lia. }
  apply Forall_app in F as [F C]. specialize (IH F). inversion C as [|? ? K _]; subst.
  rewrite value_of_app, app_length. cbn [length value_of]. rewrite Nat.add_1_r, Nat2Z.inj_succ, Z.pow_succ_r by lia.
  unfold isdigit in K. apply andb_true_iff in K as [K1 K2]. apply Z.leb_le in K1, K2. lia.
Qed.

Lemma pad6_ok z : (0 <= z < 1000000)%Z ->
  length (pad6 z) = 6%nat /\ Forall (fun c => isdigit c = true) (pad6 z) /\ value_of 0 (pad6 z) = z.
Proof.
  intros H. destruct (dec_digits z ltac:(lia)) as (N & F & V). unfold pad6. split; [|split].
  - rewrite app_length, repeat_length. assert (L : (length (dec z) <= 6)%nat); [|lia].
    destruct (Z.eq_dec z 0) as [->|Z0]; [vm_compute; lia|].
    pose proof (dec_length z ltac:(lia)) as L. destruct (le_lt_dec (length (dec z)) 6) as [G|G]; [exact G|exfalso].
    assert (10 ^ 6 <= 10 ^ (Z.of_nat (length (dec z)) - 1))%Z by (apply Z.pow_le_mono_r; lia).
    change (10 ^ 6)%Z with 1000000%Z in H0. lia.
  - apply Forall_app. split; [apply zeros_digits|exact F].
  - rewrite value_of_lead0. exact V.
Qed.

Lemma strip0_last s t : strip0 s <> t ++ ["0"%char].
Proof.
  revert t. induction s as [|c s IH]; intros t K; [destruct t; discriminate|]. cbn [strip0] in K.
  destruct (strip0 s) as [|c' s'] eqn:E.
  - destruct (ascii_dec c "0") as [->|C]; [destruct t; discriminate|]. destruct t as [|a [|b t]]; inversion K; subst; auto; destruct t; discriminate.
  - destruct t as [|a t]; [discriminate|]. inversion K. eapply IH; eassumption.
Qed.

Lemma strip0_length s : (length (strip0 s) <= length s)%nat.
Proof. destruct (strip0_zeros s) as [j E]. rewrite E at 2. rewrite app_length. lia. Qed.

Lemma back0_zeros j r : back0 (repeat "0"%char j ++ r) = back0 r.
Proof. induction j as [|j IH]; [reflexivity|]. cbn. exact IH. Qed.

Lemma repeat_rev {A} (a : A) n : rev (repeat a n) = repeat a n.
Proof. induction n as [|n IH]; [reflexivity|]. cbn [repeat rev]. rewrite IH. clear IH. induction n as [|n IH]; [reflexivity|]. cbn. f_equal. exact IH. Qed.

(** Removing the zeros, and the point when nothing is left behind it. *)
Definition cut (b : bytes) : outcome bytes :=
  match back0 (rev b) with
  | Ok (c :: t) => if ascii_dec c "." then Ok (rev t) else Ok (rev (c :: t))
  | _ => UB
  end.

Lemma cut_ok a p : Forall (fun c => isdigit c = true) p -> cut (a ++ "."%char :: p) = Ok (a ++ point (strip0 p)).
Proof.
  intros F. destruct (strip0_zeros p) as [j E]. unfold cut. rewrite E at 1. rewrite rev_app_distr. cbn [rev]. rewrite rev_app_distr, repeat_rev, <- !app_assoc, back0_zeros.
  pose proof (strip0_last p) as L. pose proof (strip0_digits p F) as D. remember (strip0 p) as q eqn:Q. clear Q E F.
  destruct q as [|c q] using rev_ind.
  - cbn. rewrite rev_involutive, app_nil_r. reflexivity.
  - clear IHq. rewrite rev_app_distr. cbn [rev app back0]. destruct (ascii_dec c "0") as [->|C]; [exfalso; eapply L; reflexivity|].
    destruct (ascii_dec c ".") as [->|P].
    { apply Forall_app in D as [_ D]. inversion D as [|? ? K _]. discriminate K. }
    f_equal. cbn [rev]. rewrite rev_app_distr, !rev_involutive. cbn [rev app]. rewrite rev_involutive, <- !app_assoc. cbn [app].
    destruct q; reflexivity.
Qed.

Lemma has_point a p : existsb (fun c => if ascii_dec c "." then true else false) (a ++ "."%char :: p) = true.
Proof. apply existsb_exists. exists "."%char. split; [apply in_elt|reflexivity]. Qed.

(** What is left does not end with a point. *)
Lemma not_point_end a p : a <> [] -> Forall (fun c => isdigit c = true) p -> Forall (fun c => c <> "."%char) a ->
  exists c t, rev (a ++ point (strip0 p)) = c :: t /\ c <> "."%char.
Proof.
  intros N F A. pose proof (strip0_digits p F) as D. destruct (strip0 p) as [|c q] using rev_ind.
  - cbn. rewrite app_nil_r. destruct a as [|c a] using rev_ind; [contradiction|]. clear IHa. rewrite rev_app_distr. exists c, (rev a). split; [reflexivity|].
    apply Forall_app in A as [_ A]. inversion A; auto.
  - assert (E : point (q ++ [c]) = "."%char :: q ++ [c]) by (destruct q; reflexivity). rewrite E, rev_app_distr. cbn [rev]. rewrite rev_app_distr. cbn [rev app].
    exists c, (rev q ++ "."%char :: rev a)%list. split; [rewrite <- !app_assoc; reflexivity|].
    apply Forall_app in D as [_ D]. inversion D as [|? ? K _]. intros ->. discriminate K.
Qed.

Lemma digits_no_point s : Forall (fun c => isdigit c = true) s -> Forall (fun c => c <> "."%char) s.
Proof. intros H. eapply Forall_impl; [|exact H]. cbn. intros c K ->. discriminate K. Qed.

(** ** The buffer is large enough *)
Lemma dec_length_le z n : (0 <= z < 10 ^ Z.of_nat n)%Z -> (0 < n)%nat -> (length (dec z) <= n)%nat.
Proof.
  intros H N. destruct (Z.eq_dec z 0) as [->|Z0]. { change (length (dec 0)) with 1%nat. lia. }
  pose proof (dec_length z ltac:(lia)) as L. destruct (le_lt_dec (length (dec z)) n) as [G|G]; [exact G|exfalso].
  assert (10 ^ Z.of_nat n <= 10 ^ (Z.of_nat (length (dec z)) - 1))%Z by (apply Z.pow_le_mono_r; lia). lia.
Qed.

Lemma fix6_length q : (0 <= q < 10 ^ 315)%Z -> (length (fix6 q) <= 316)%nat.
Proof.
  intros H. unfold fix6. rewrite app_length. cbn [length].
  pose proof (Z.mod_pos_bound q 1000000 ltac:(lia)) as M. destruct (pad6_ok (q mod 1000000) M) as (-> & _).
  assert (D : (length (dec (q / 1000000)) <= 309)%nat); [|lia].
  apply dec_length_le; [|lia]. split; [apply Z.div_pos; lia|].
  apply Z.div_lt_upper_bound; [lia|]. change (1000000 * 10 ^ Z.of_nat 309)%Z with (10 ^ 315)%Z. exact (proj2 H).
Qed.

Lemma ftoa_fix6 (s : bool) q : (0 <= q < 10 ^ 315)%Z -> let b := (if s then ["-"%char] else []) ++ fix6 q in
  firstn 319 b = b /\
  (if existsb (fun c => if ascii_dec c "." then true else false) b then
    obind (back0 (rev b)) (fun r => match r with
    | c :: t => if ascii_dec c "." then Ok (rev t) else Ok (rev r)
    | [] => UB
    end)
  else Ok b) = Ok ((if s then ["-"%char] else []) ++ dec (q / 1000000) ++ point (strip0 (pad6 (q mod 1000000)))) /\
  exists c t, rev ((if s then ["-"%char] else []) ++ dec (q / 1000000) ++ point (strip0 (pad6 (q mod 1000000)))) = c :: t /\ c <> "."%char.
Proof.
  intros H b. pose proof (Z.mod_pos_bound q 1000000 ltac:(lia)) as M. destruct (pad6_ok (q mod 1000000) M) as (L6 & F6 & _).
  assert (D0 : (0 <= q / 1000000)%Z) by (apply Z.div_pos; lia). destruct (dec_digits _ D0) as (N & F & _).
  split; [|split].
  - apply firstn_all2. unfold b. rewrite app_length. pose proof (fix6_length q H). destruct s; cbn [length]; lia.
  - unfold b, fix6. rewrite app_assoc. rewrite has_point.
    pose proof (cut_ok ((if s then ["-"%char] else []) ++ dec (q / 1000000)) _ F6) as C. unfold cut in C. rewrite app_assoc.
    destruct (back0 _) as [[|c t]| |]; cbn [obind] in *; try discriminate; exact C.
  - rewrite app_assoc. apply not_point_end; [|exact F6|].
    + intros K. apply app_eq_nil in K. tauto.
    + apply Forall_app. split; [destruct s; repeat constructor; discriminate|apply digits_no_point, F].
Qed.

Definition ftoa_q (x : f64) : Z := match x with B754_finite s m e _ => let (n, d) := frac2 m e in scaled n d 6 | _ => 0%Z end.

Lemma ftoa_q_ok (x : f64) : is_finite x = true -> (0 <= ftoa_q x)%Z /\ IZR (ftoa_q x) * bpow radix10 (-6) = millionths (Rabs (B2R x)) /\ (ftoa_q x < 10 ^ 315)%Z.
Proof.
  assert (MZ : forall y, millionths y = IZR (ZnearestE (y * bpow radix10 6)) * bpow radix10 (-6)).
  { intros y. unfold millionths, round, F2R, scaled_mantissa, cexp, FIX_exp. reflexivity. }
  destruct x as [s|s| |s m e H]; intros F; try discriminate.
  - cbn [ftoa_q B2R]. split; [lia|]. split; [|reflexivity]. rewrite Rabs_R0. unfold millionths. rewrite round_0 by typeclasses eauto. ring.
  - rewrite MZ. cbn [ftoa_q]. pose proof (frac2_ok m e) as FR. destruct (frac2 m e) as [n d]. destruct FR as (Hn & Hd & E).
    assert (V : Rabs (B2R (B754_finite s m e H : f64)) = IZR (Zpos m) * bpow radix2 e).
    { assert (P : 0 < IZR (Zpos m) * bpow radix2 e) by (apply Rmult_lt_0_compat; [apply IZR_lt; lia|apply bpow_gt_0]).
      rewrite B2R_finite. destruct s; [rewrite Rabs_Ropp|]; apply Rabs_pos_eq; lra. }
    pose proof (abs_B2R_lt_emax 53 1024 (B754_finite s m e H)) as U. rewrite V in U. rewrite V, <- E.
    rewrite scaled_ok by lia. split; [|split; [reflexivity|]].
    + rewrite E. apply le_IZR. assert (0 <= IZR (Z.pos m) * bpow radix2 e * bpow radix10 6).
      { apply Rmult_le_pos; [|apply bpow_ge_0]. apply Rmult_le_pos; [apply IZR_le; lia|apply bpow_ge_0]. }
      rewrite <- (Zrnd_IZR ZnearestE 0). apply IZR_le, Zrnd_le; [typeclasses eauto|assumption].
    + rewrite E. apply Z.le_lt_trans with (2 ^ 1024 * 10 ^ 6)%Z; [|vm_compute; reflexivity].
      rewrite <- (Zrnd_IZR ZnearestE (2 ^ 1024 * 10 ^ 6)). apply Zrnd_le; [typeclasses eauto|].
      rewrite mult_IZR. change (bpow radix10 6) with (IZR (10 ^ 6)). apply Rmult_le_compat_r; [apply IZR_le; lia|].
      change (IZR (2 ^ 1024)) with (bpow radix2 1024). lra.
Qed.

Definition ftoa_text (s : bool) (q : Z) : bytes := (if s then ["-"%char] else []) ++ dec (q / 1000000) ++ point (strip0 (pad6 (q mod 1000000))).

Lemma ftoa_finite (x : f64) : is_finite x = true -> ftoa x = Ok (ftoa_text (Bsign x) (ftoa_q x)).
Proof.
  intros F. destruct (ftoa_q_ok x F) as (P & _ & U). destruct (ftoa_fix6 (Bsign x) (ftoa_q x) (conj P U)) as (A & B & c & t & E & C).
  assert (G : f6 x = (if Bsign x then ["-"%char] else []) ++ fix6 (ftoa_q x)).
  { destruct x as [s|s| |s m e H]; try discriminate; cbn [f6 Bsign ftoa_q]; [reflexivity|]. destruct (frac2 m e). reflexivity. }
  unfold ftoa, gcvt_s. change (320 - 1)%nat with 319%nat. rewrite G. cbv zeta. rewrite A. unfold ftoa_text.
  match type of B with _ = Ok ?t => match goal with |- obind ?m _ = _ => replace m with (@Ok bytes t) end end.
  cbn [obind]. rewrite E.
  destruct (ascii_dec c "."); [contradiction|reflexivity].
Qed.

Lemma ftoa_text_plain s q : (0 <= q)%Z ->
  plain_text s (dec (q / 1000000)) (strip0 (pad6 (q mod 1000000))) (ftoa_text s q) /\
  IZR (value_of 0 (dec (q / 1000000) ++ strip0 (pad6 (q mod 1000000)))) * bpow radix10 (- Z.of_nat (length (strip0 (pad6 (q mod 1000000))))) = IZR q * bpow radix10 (-6).
Proof.
  intros H. pose proof (Z.mod_pos_bound q 1000000 ltac:(lia)) as M. destruct (pad6_ok (q mod 1000000) M) as (L6 & F6 & V6).
  assert (D0 : (0 <= q / 1000000)%Z) by (apply Z.div_pos; lia). destruct (dec_spec _ D0) as (N & F & V & Z0 & _). split.
  - split; [exact N|]. split; [apply digit_text_iff, F|]. split; [exact Z0|]. split; [apply digit_text_iff, strip0_digits, F6|].
    split; [pose proof (strip0_length (pad6 (q mod 1000000))); lia|]. split; [intros t; apply strip0_last|reflexivity].
  - destruct (strip0_zeros (pad6 (q mod 1000000))) as [j E]. set (p := strip0 (pad6 (q mod 1000000))) in *.
    assert (LJ : (length p + j = 6)%nat). { rewrite <- L6, E, app_length, repeat_length. reflexivity. }
    assert (VQ : q = (value_of 0 (dec (q / 1000000) ++ p) * 10 ^ Z.of_nat j)%Z).
    { rewrite <- value_of_zeros, <- value_of_app, <- app_assoc, <- E, value_of_app, V.
      rewrite (Z.div_mod q 1000000) at 1 by lia.
      assert (SH : forall s a, value_of a s = (a * 10 ^ Z.of_nat (length s) + value_of 0 s)%Z).
      { clear. induction s as [|c s IH]; intros a; [cbn; lia|]. cbn [value_of length]. rewrite IH, (IH (0 * 10 + _)%Z), Nat2Z.inj_succ, Z.pow_succ_r by lia. ring. }
      rewrite SH, L6, V6. change (10 ^ Z.of_nat 6)%Z with 1000000%Z. ring. }
    rewrite VQ at 2. rewrite mult_IZR, <- bpow10_pos, Rmult_assoc, <- bpow_plus by lia. f_equal. f_equal. lia.
Qed.

Lemma millionths_opp y : millionths (- y) = - millionths y.
Proof. apply round_NE_opp. Qed.

Lemma millionths_sign (x : f64) : is_finite x = true -> millionths (B2R x) = if Bsign x then - millionths (Rabs (B2R x)) else millionths (Rabs (B2R x)).
Proof.
  destruct x as [s|s| |s m e H]; intros F; try discriminate.
  - cbn [B2R Bsign]. rewrite Rabs_R0. unfold millionths. rewrite round_0 by typeclasses eauto. destruct s; ring.
  - assert (P : 0 < IZR (Zpos m) * bpow radix2 e) by (apply Rmult_lt_0_compat; [apply IZR_lt; lia|apply bpow_gt_0]).
    rewrite B2R_finite. cbn [Bsign]. destruct s.
    + rewrite Rabs_Ropp, millionths_opp, Rabs_pos_eq by lra. reflexivity.
    + rewrite Rabs_pos_eq by lra. reflexivity.
Qed.

Lemma ftoa_plain (x : f64) : is_finite x = true ->
  exists s ip fp, ftoa x = Ok s /\ plain_text (Bsign x) ip fp s /\ plain_value (Bsign x) ip fp = millionths (B2R x).
Proof.
  intros F. destruct (ftoa_q_ok x F) as (P & V & _). destruct (ftoa_text_plain (Bsign x) (ftoa_q x) P) as (T & W).
  eexists _, _, _. split; [apply ftoa_finite, F|]. split; [exact T|].
  unfold plain_value, number_value. rewrite W, V, millionths_sign by exact F. reflexivity.
Qed.

Lemma plain_number neg ip fp s : plain_text neg ip fp s -> number_text neg (ip ++ fp) (- Z.of_nat (length fp)) s.
Proof.
  intros (N & DI & _ & DF & _ & _ & ->). exists [], (sign_of neg), ip, fp, (point fp), 0%Z, [].
  split; [constructor|]. split; [apply sign_of_ok|]. split; [exact DI|]. split; [apply point_fraction, DF|]. split; [left; auto|].
  split; [reflexivity|]. split. { intros K. apply app_eq_nil in K. tauto. } split; [lia|]. rewrite app_nil_r. reflexivity.
Qed.

Lemma ftoa_back (x : f64) : is_finite x = true ->
  exists s y, ftoa x = Ok s /\ IsDouble f64 strtod s = (y, true) /\ double_of (Bsign x) (millionths (B2R x)) y.
Proof.
  intros F. destruct (ftoa_plain x F) as (s & ip & fp & E & T & V). destruct (IsDouble_number _ _ _ _ (plain_number _ _ _ _ T)) as (y & I & D).
  exists s, y. split; [exact E|]. split; [exact I|]. rewrite <- V. exact D.
Qed.
