(** Proofs about wide strings. *)
From Coq Require Import ZArith Lia Ascii String List Bool.
From Flocq Require Import BinarySingleNaN.
From Verif Require Import Base StrModel StrSpec StrProofs FloatModel NumModel NumSpec NumProofs FtoaModel FtoaSpec FtoaProofs FtoaProofs2.
Import ListNotations.
Open Scope Z_scope.

Lemma cwide_id w : Forall (fun c => c <> 0) w -> cwide w = w.
Proof. induction 1 as [|c w H _ IH]; [reflexivity|]. cbn. destruct (Z.eqb_spec c 0); [contradiction|]. now rewrite IH. Qed.

Lemma cbytes_id s : ~ In "000"%char s -> cbytes s = s.
Proof.
  induction s as [|c s IH]; intros H; [reflexivity|]. cbn [cbytes]. destruct (ascii_dec c "000") as [->|]; [exfalso; apply H; left; reflexivity|].
  rewrite IH; [reflexivity|]. intros K. apply H. right. exact K.
Qed.

Lemma to_string_zero {A} (is0 : A -> bool) s z n : Forall (fun c => is0 c = false) s -> is0 z = true -> to_string is0 (s ++ repeat z (S n)) = Ok s.
Proof. intros H Z. induction H as [|c s C _ IH]; cbn [app repeat to_string]; [rewrite Z; reflexivity|]. cbn [repeat] in IH. rewrite C, IH. reflexivity. Qed.

Section Codec.
Variable enc : Z -> option bytes.
Variable dec1 : bytes -> option (Z * nat).
Hypothesis codec : encoding enc dec1.

Lemma encodes_length w s : encodes enc w s -> wcs_length enc w = Some (Z.of_nat (length s)).
Proof. induction 1 as [|c b w s E _ IH]; [reflexivity|]. cbn. rewrite E, IH, app_length. f_equal. lia. Qed.

Lemma encodes_wcstombs w s : encodes enc w s -> forall n, Z.of_nat (length s) <= n -> wcstombs enc n w = (s, true).
Proof.
  induction 1 as [|c b w s E _ IH]; intros n L; [reflexivity|]. rewrite app_length in L. cbn. rewrite E.
  destruct (Z.leb_spec (Z.of_nat (length b)) n); [|lia]. rewrite IH by lia. reflexivity.
Qed.

Lemma encodes_no0 w s : Forall (fun c => c <> 0) w -> encodes enc w s -> ~ In "000"%char s.
Proof.
  intros F E. induction E as [|c b w s E _ IH]; [auto|]. inversion F as [|? ? C F']; subst. intros K. apply in_app_or in K as [K|K].
  - apply (enc_some enc dec1 codec c b C E), K.
  - exact (IH F' K).
Qed.

Lemma limit_small n : 0 <= n < 2 ^ 63 -> limit (n + 1) = n.
Proof. intros H. change (2 ^ 63) with 9223372036854775808 in H. unfold limit. rewrite Z.mod_small; lia. Qed.

Lemma wtoa_ok w s : Forall (fun c => c <> 0) w -> encodes enc w s -> Z.of_nat (length s) < 2 ^ 63 -> wtoa enc w = Ok s.
Proof.
  intros F E L. unfold wtoa. rewrite cwide_id by exact F. rewrite (encodes_length _ _ E), limit_small by lia.
  rewrite (encodes_wcstombs _ _ E) by lia. destruct (Z.ltb_spec (Z.of_nat (length s) + 1) (Z.of_nat (length s))); [lia|].
  replace (Z.to_nat (Z.of_nat (length s) + 1) - length s)%nat with 1%nat by lia.
  apply (to_string_zero _ s "000"%char 0); [|reflexivity]. apply Forall_forall. intros c K. destruct (ascii_dec c "000") as [->|]; [|reflexivity].
  exfalso. exact (encodes_no0 _ _ F E K).
Qed.

Lemma no_length w : Exists (fun c => enc c = None) w -> wcs_length enc w = None.
Proof. induction 1 as [c w H|c w _ IH]; cbn; [rewrite H; reflexivity|]. rewrite IH. destruct (enc c); reflexivity. Qed.

(** A text with a character without encoding overruns a buffer of length 0. *)
Lemma wtoa_bad w : Exists (fun c => enc c = None) (cwide w) -> wtoa enc w = UB.
Proof.
  intros H. unfold wtoa. rewrite (no_length _ H). destruct (wcstombs enc (limit 0) (cwide w)) as [put ok].
  destruct (Z.ltb_spec 0 (Z.of_nat (length put))) as [L|L]; [reflexivity|]. destruct put; [reflexivity|cbn in L; lia].
Qed.

Lemma cwide_encodes w : (exists s, encodes enc w s) \/ Exists (fun c => enc c = None) w.
Proof.
  induction w as [|c w [[s IH]|IH]]; [left; exists []; constructor| |right; constructor 2; exact IH].
  destruct (enc c) as [b|] eqn:E; [left; exists (b ++ s); constructor; auto|right; constructor; exact E].
Qed.

Lemma cwide_no0 w : Forall (fun c => c <> 0) (cwide w).
Proof. induction w as [|c w IH]; [constructor|]. cbn. destruct (Z.eqb_spec c 0); constructor; auto. Qed.

Lemma cwide_idem w : cwide (cwide w) = cwide w.
Proof. apply cwide_id, cwide_no0. Qed.

Lemma wtoa_cut w : wtoa enc w = wtoa enc (cwide w).
Proof. unfold wtoa. rewrite cwide_idem. reflexivity. Qed.

(** *** The other direction *)
Lemma skipn_enc (b s : bytes) : skipn (length b) (b ++ s) = s.
Proof. rewrite skipn_app, skipn_all, Nat.sub_diag. reflexivity. Qed.

Lemma encodes_mbs w s : Forall (fun c => c <> 0) w -> encodes enc w s -> forall f, (length s <= f)%nat ->
  mbs_length dec1 f s = Some (Z.of_nat (length w)) /\ forall n, Z.of_nat (length w) <= n -> mbstowcs dec1 f n s = (w, true).
Proof.
  intros F E. induction E as [|c b w s E _ IH]; intros f L.
  - split; [destruct f; reflexivity|]. intros n _. destruct f; reflexivity.
  - inversion F as [|? ? C F']; subst. destruct (enc_some enc dec1 codec c b C E) as [B _].
    pose proof (enc_dec enc dec1 codec c b s C E) as D. rewrite app_length in L.
    destruct b as [|a b]; [contradiction|]. destruct f as [|f]; [cbn in L; lia|].
    assert (SK : skipn (length (a :: b)) ((a :: b) ++ s) = s) by apply skipn_enc.
    cbn [app length] in *. destruct (IH F' f ltac:(lia)) as [IH1 IH2]. split.
    + cbn [mbs_length]. rewrite D. rewrite SK, IH1. f_equal. lia.
    + intros n H. cbn [mbstowcs]. destruct (Z.leb_spec n 0); [lia|]. rewrite D, SK, IH2 by lia. reflexivity.
Qed.

Lemma encodes_lengths w s : Forall (fun c => c <> 0) w -> encodes enc w s -> (length w <= length s)%nat.
Proof.
  intros F E. induction E as [|c b w s E _ IH]; [cbn; lia|]. inversion F as [|? ? C F']; subst. destruct (enc_some enc dec1 codec c b C E) as [B _].
  rewrite app_length. destruct b; [contradiction|]. specialize (IH F'). cbn. lia.
Qed.

Lemma atow_ok w s : Forall (fun c => c <> 0) w -> encodes enc w s -> Z.of_nat (length s) < 2 ^ 63 -> atow dec1 s = Ok w.
Proof.
  intros F E L. pose proof (encodes_lengths w s F E) as LL. unfold atow. rewrite cbytes_id by (apply (encodes_no0 w); auto).
  destruct (encodes_mbs w s F E (length s) ltac:(lia)) as [M1 M2]. rewrite M1, limit_small by lia. rewrite M2 by lia.
  destruct (Z.ltb_spec (Z.of_nat (length w) + 1) (Z.of_nat (length w))); [lia|].
  replace (Z.to_nat (Z.of_nat (length w) + 1) - length w)%nat with 1%nat by lia.
  apply (to_string_zero _ w 0 0); [|reflexivity]. apply Forall_forall. intros c K. rewrite Forall_forall in F. apply Z.eqb_neq, F, K.
Qed.

Lemma mbs_bad w s1 a s2 : Forall (fun c => c <> 0) w -> encodes enc w s1 -> dec1 (a :: s2) = None ->
  forall f, (length (s1 ++ a :: s2) <= f)%nat -> mbs_length dec1 f (s1 ++ a :: s2) = None.
Proof.
  intros F E N. induction E as [|c b w s E _ IH]; intros f L.
  - destruct f as [|f]; [cbn in L; lia|]. cbn. rewrite N. reflexivity.
  - inversion F as [|? ? C F']; subst. destruct (enc_some enc dec1 codec c b C E) as [B _].
    pose proof (enc_dec enc dec1 codec c b (s ++ a :: s2) C E) as D. rewrite <- app_assoc in *. rewrite app_length in L.
    destruct b as [|x b]; [contradiction|]. destruct f as [|f]; [cbn in L; lia|].
    assert (SK : skipn (length (x :: b)) ((x :: b) ++ s ++ a :: s2) = s ++ a :: s2) by apply skipn_enc.
    cbn [app length] in *. cbn [mbs_length]. rewrite D, SK, IH; [reflexivity|exact F'|lia].
Qed.

Lemma encodes_nonzero w s : encodes enc w s -> ~ In "000"%char s -> enc 0 = Some ["000"%char] \/ enc 0 = None -> Forall (fun c => c <> 0) w.
Proof.
  intros E N Z. induction E as [|c b w s E _ IH]; constructor.
  - intros ->. destruct Z as [Z|Z]; rewrite Z in E; [|discriminate]. injection E as <-. apply N. left. reflexivity.
  - apply IH. intros K. apply N, in_or_app. right. exact K.
Qed.

Lemma atow_bad s : undecodable enc dec1 (cbytes s) -> enc 0 = Some ["000"%char] \/ enc 0 = None -> atow dec1 s = UB.
Proof.
  intros (w & s1 & a & s2 & E & K & N) Z. unfold atow.
  assert (F : Forall (fun c => c <> 0) w).
  { apply (encodes_nonzero w s1 E); [|exact Z]. assert (H : ~ In "000"%char (cbytes s)).
    { clear. induction s as [|c s IH]; [auto|]. cbn. destruct (ascii_dec c "000"); [auto|]. intros [H|H]; auto. }
    rewrite K in H. intros I. apply H, in_or_app. left. exact I. }
  rewrite K, (mbs_bad w s1 a s2 F E N) by lia. destruct (mbstowcs dec1 _ (limit 0) _) as [put ok].
  destruct (Z.ltb_spec 0 (Z.of_nat (length put))) as [L|L]; [reflexivity|]. destruct put; [reflexivity|cbn in L; lia].
Qed.

(** Every byte text without NUL is an encoding or goes wrong somewhere. *)
Lemma decodes_or_not : forall n s, (length s <= n)%nat -> ~ In "000"%char s -> (exists w, Forall (fun c => c <> 0) w /\ encodes enc w s) \/ undecodable enc dec1 s.
Proof.
  induction n as [|n IH]; intros s L N.
  - destruct s; [|cbn in L; lia]. left. exists []. split; constructor.
  - destruct s as [|a s]; [left; exists []; split; constructor|].
    destruct (dec1 (a :: s)) as [[c k]|] eqn:D.
    + assert (A : a <> "000"%char) by (intros ->; apply N; left; reflexivity).
      destruct (dec_enc enc dec1 codec a s c k A D) as (C & Hk & E).
      destruct (IH (skipn k (a :: s))) as [(w & F & W)|(w & s1 & x & s2 & W & K & B)].
      * rewrite skipn_length. cbn [length] in *. lia.
      * intros K. apply N. rewrite <- (firstn_skipn k (a :: s)). apply in_or_app. right. exact K.
      * left. exists (c :: w). split; [constructor; auto|]. rewrite <- (firstn_skipn k (a :: s)). constructor; auto.
      * right. exists (c :: w), (firstn k (a :: s) ++ s1), x, s2. split; [constructor; auto|]. split; [|exact B].
        rewrite <- app_assoc, <- K, firstn_skipn. reflexivity.
    + right. exists [], [], a, s. split; [constructor|]. split; [reflexivity|exact D].
Qed.
End Codec.

(** ** The "C" locale *)
Lemma code_range c : 0 <= code c < 256.
Proof. unfold code. pose proof (nat_ascii_bounded c). lia. Qed.

Lemma of_code c : ascii_of_nat (Z.to_nat (code c)) = c.
Proof. unfold code. rewrite Nat2Z.id. apply ascii_nat_embedding. Qed.

Lemma code_of z : 0 <= z < 256 -> code (ascii_of_nat (Z.to_nat z)) = z.
Proof. intros H. unfold code. rewrite nat_ascii_embedding; lia. Qed.

Lemma ascii_encoding : encoding ascii_enc ascii_dec1.
Proof.
  split.
  - intros c b C E. unfold ascii_enc in E. destruct ((0 <=? c) && (c <? 128)) eqn:R; [|discriminate]. injection E as <-.
    apply andb_true_iff in R as [R1 R2]. apply Z.leb_le in R1. apply Z.ltb_lt in R2.
    split; [discriminate|]. intros [K|[]]. pose proof (code_of c ltac:(lia)) as H. rewrite K in H. change (code "000") with 0 in H. lia.
  - intros c b r C E. unfold ascii_enc in E. destruct ((0 <=? c) && (c <? 128)) eqn:R; [|discriminate]. injection E as <-.
    apply andb_true_iff in R as [R1 R2]. apply Z.leb_le in R1. apply Z.ltb_lt in R2. cbn [app ascii_dec1]. rewrite code_of by lia.
    destruct (Z.ltb_spec c 128); [reflexivity|lia].
  - intros a s c k A D. cbn in D. destruct (Z.ltb_spec (code a) 128) as [L|]; [|discriminate]. injection D as <- <-.
    pose proof (code_range a). split; [|split].
    + intros K. apply A. rewrite <- (of_code a), K. reflexivity.
    + lia.
    + unfold ascii_enc. destruct (Z.leb_spec 0 (code a)); [|lia]. destruct (Z.ltb_spec (code a) 128); [|lia]. cbn [andb]. rewrite of_code. reflexivity.
Qed.

Lemma ascii_enc0 : ascii_enc 0 = Some ["000"%char] \/ ascii_enc 0 = None.
Proof. left. reflexivity. Qed.

Lemma encodes_widen s : ascii_text s -> encodes ascii_enc (widen s) s.
Proof.
  induction 1 as [|c s C _ IH]; [constructor|]. cbn [widen map]. change (c :: s) with ([c] ++ s). constructor; [|exact IH].
  pose proof (code_range c). unfold ascii_enc. destruct (Z.leb_spec 0 (code c)); [|lia]. destruct (Z.ltb_spec (code c) 128); [|lia]. cbn [andb]. rewrite of_code. reflexivity.
Qed.

Lemma widen_nonzero s : ~ In "000"%char s -> Forall (fun c => c <> 0) (widen s).
Proof.
  intros H. apply Forall_forall. intros z K. apply in_map_iff in K as (c & <- & K). intros E. apply H. rewrite <- (of_code c), E in K. exact K.
Qed.

Lemma atow_widen s : ascii_text s -> ~ In "000"%char s -> Z.of_nat (length s) < 2 ^ 63 -> atow ascii_dec1 s = Ok (widen s).
Proof.
  intros A N L. apply (atow_ok ascii_enc ascii_dec1 ascii_encoding); [apply widen_nonzero, N|apply encodes_widen, A|exact L].
Qed.

Lemma plain_ascii neg ip fp s : plain_text neg ip fp s -> Forall (fun c => 0 < code c < 128) s.
Proof.
  intros (_ & DI & _ & DF & _ & _ & ->). apply digit_text_iff in DI, DF.
  assert (D : forall l, Forall (fun c => isdigit c = true) l -> Forall (fun c => 0 < code c < 128) l).
  { intros l H. eapply Forall_impl; [|exact H]. cbn. intros c K. unfold isdigit in K. apply andb_true_iff in K as [K1 K2]. apply Z.leb_le in K1, K2. lia. }
  apply Forall_app. split; [destruct neg; [constructor; [change (code "-") with 45; lia|constructor]|constructor]|]. apply Forall_app. split; [apply D, DI|].
  destruct fp; [constructor|]. constructor; [change (code ".") with 46; lia|apply D, DF].
Qed.

Lemma plain_ascii_text neg ip fp s : plain_text neg ip fp s -> ascii_text s /\ ~ In "000"%char s.
Proof.
  intros T. pose proof (plain_ascii _ _ _ _ T) as F. split.
  - eapply Forall_impl; [|exact F]. cbn. intros. lia.
  - intros K. rewrite Forall_forall in F. specialize (F _ K). change (code "000") with 0 in F. lia.
Qed.

Lemma ftoa_length (x : f64) s : ftoa x = Ok s -> (length s <= 319)%nat.
Proof.
  unfold ftoa, gcvt_s. change (320 - 1)%nat with 319%nat. cbv zeta.
  assert (B : forall r b, back0 r = Ok b -> (length b <= length r)%nat).
  { induction r as [|c r IH]; intros b H; [discriminate|]. cbn [back0] in H. destruct (ascii_dec c "0"); [specialize (IH _ H); cbn; lia|]. injection H as <-. lia. }
  pose proof (firstn_le_length 319 (f6 x)) as L. set (b := firstn 319 (f6 x)) in *. clearbody b. destruct (existsb _ b).
  - destruct (back0 (rev b)) as [[|c t]| |] eqn:E; cbn [obind]; try discriminate.
    apply B in E. rewrite rev_length in E. cbn [length] in E. destruct (ascii_dec c "."); cbn [obind].
    + rewrite rev_involutive. destruct t as [|d t]; [discriminate|]. cbn [length] in E. destruct (ascii_dec d "."); intros H; injection H as <-; cbn [rev]; rewrite ?app_length, ?rev_length; cbn [length]; lia.
    + rewrite rev_involutive. destruct (ascii_dec c "."); [contradiction|]. intros H; injection H as <-. cbn [rev]. rewrite ?app_length, ?rev_length. cbn [length]. lia.
  - cbn [obind]. destruct (rev b) as [|c t] eqn:R; [discriminate|]. destruct (ascii_dec c "."); intros H; injection H as <-; [|lia].
    apply (f_equal (@length _)) in R. rewrite rev_length in R. cbn in R. rewrite rev_length. lia.
Qed.

Lemma ftow_finite (x : f64) : is_finite x = true -> exists s, ftoa x = Ok s /\ ftow ascii_dec1 x = Ok (widen s).
Proof.
  intros F. destruct (ftoa_plain x F) as (s & ip & fp & E & T & _). exists s. split; [exact E|]. unfold ftow. rewrite E. cbn [obind].
  destruct (plain_ascii_text _ _ _ _ T). apply atow_widen; auto. pose proof (ftoa_length x s E). change (2 ^ 63) with 9223372036854775808. lia.
Qed.

(** ** Numbers in wide strings *)
Lemma narrow_code c : code c < 128 -> narrow (code c) = c.
Proof. intros H. pose proof (code_range c). unfold narrow. destruct (Z.leb_spec 0 (code c)); [|lia]. destruct (Z.ltb_spec (code c) 128); [|lia]. apply of_code. Qed.

Lemma narrow_widen s : ascii_text s -> map narrow (widen s) = s.
Proof. induction 1 as [|c s C _ IH]; [reflexivity|]. cbn. rewrite narrow_code by exact C. f_equal. exact IH. Qed.

Lemma canonical_ascii s z : canonical s z -> ascii_text s.
Proof.
  assert (D : forall l, Forall (fun c => isdigit c = true) l -> ascii_text l).
  { intros l H. eapply Forall_impl; [|exact H]. cbn. intros c K. unfold isdigit in K. apply andb_true_iff in K as [K1 K2]. apply Z.leb_le in K1, K2. lia. }
  intros [(d & -> & _ & _ & F & _)|(d & -> & _ & _ & F & _)]; [apply D, F|]. constructor; [change (code "-") with 45; lia|apply D, F].
Qed.

Lemma weqb_eq a b : weqb a b = true <-> a = b.
Proof. unfold weqb. destruct (list_eq_dec Z.eq_dec a b); split; auto; discriminate. Qed.

Lemma itow_widen z : itow z = widen (itoa z).
Proof. reflexivity. Qed.

Lemma IsIntW_char w v : IsIntW w = (v, true) <-> exists s, canonical s v /\ in_int v /\ w = widen s.
Proof.
  split.
  - unfold IsIntW. destruct (strtol (map narrow w)) as [u r]. intros H. inversion H as [[E1 E2]].
    apply andb_true_iff in E2 as [_ E2]. apply weqb_eq in E2. exists (itoa (wrap32 u)). split; [apply itoa_canonical|]. split; [apply wrap32_range|]. symmetry. exact E2.
  - intros (s & C & I & ->). unfold IsIntW. rewrite narrow_widen by (apply (canonical_ascii s v C)).
    assert (L : in_long v) by (unfold in_int, in_long, INT_MIN, INT_MAX, LONG_MIN, LONG_MAX in *; lia).
    rewrite (strtol_canonical s v C L). rewrite wrap32_id by exact I. cbn [andb]. f_equal. apply weqb_eq. rewrite itow_widen. f_equal.
    apply (canonical_unique (itoa v) s v (itoa_canonical v) C).
Qed.

Lemma IsInt64W_char w v : IsInt64W w = (v, true) <-> exists s, canonical s v /\ in_long v /\ w = widen s.
Proof.
  split.
  - unfold IsInt64W. pose proof (strtol_long (map narrow w)) as L. destruct (strtol (map narrow w)) as [u r]. intros H. inversion H as [[E1 E2]].
    apply andb_true_iff in E2 as [_ E2]. apply weqb_eq in E2. cbn [fst] in L. exists (itoa v). subst u. split; [apply itoa_canonical|]. split; [exact L|]. symmetry. exact E2.
  - intros (s & C & I & ->). unfold IsInt64W. rewrite narrow_widen by (apply (canonical_ascii s v C)).
    rewrite (strtol_canonical s v C I). cbn. f_equal. apply weqb_eq. rewrite itow_widen. f_equal. apply (canonical_unique (itoa v) s v (itoa_canonical v) C).
Qed.

Lemma utoa_canonical z : 0 <= z -> canonical (utoa z) z.
Proof. intros H. destruct (dec_spec z H) as (N & F & V & Z0 & _). left. exists (dec z). repeat split; auto. Qed.

Lemma IsUInt64W_char w v : IsUInt64W w = (v, true) <-> exists s, canonical s v /\ 0 <= v <= ULONG_MAX /\ w = widen s.
Proof.
  split.
  - unfold IsUInt64W. pose proof (strtoul_range (map narrow w)) as L. destruct (strtoul (map narrow w)) as [u r]. intros H. inversion H as [[E1 E2]].
    apply andb_true_iff in E2 as [_ E2]. apply weqb_eq in E2. cbn [fst] in L. exists (utoa v). subst u. split; [apply utoa_canonical; lia|]. split; [exact L|]. symmetry. exact E2.
  - intros (s & C & I & ->). unfold IsUInt64W. rewrite narrow_widen by (apply (canonical_ascii s v C)).
    rewrite (strtoul_canonical s v C I). cbn [andb]. f_equal. apply weqb_eq. unfold utow, widen. f_equal. apply (canonical_unique (utoa v) s v); [apply utoa_canonical; lia|exact C].
Qed.

Lemma wrap64_back u : 0 <= u <= ULONG_MAX -> wrap64 u mod 18446744073709551616 = u.
Proof.
  intros H. unfold wrap64, ULONG_MAX in *. rewrite Zminus_mod_idemp_l. replace (u + 9223372036854775808 - 9223372036854775808) with u by ring. apply Z.mod_small. lia.
Qed.

Lemma IsUIntW_same w : IsUIntW w = IsUInt64W w.
Proof.
  unfold IsUIntW, IsUInt64W. pose proof (strtoul_range (map narrow w)) as L. destruct (strtoul (map narrow w)) as [u r]. cbn [fst] in L. rewrite wrap64_back by exact L. reflexivity.
Qed.

Lemma IsDoubleW_widen s : ascii_text s -> IsDoubleW (widen s) = IsDouble f64 strtod s.
Proof. intros A. unfold IsDoubleW, IsDouble. rewrite narrow_widen by exact A. unfold widen. rewrite map_length. reflexivity. Qed.

(** A character beyond ASCII ends a number. *)
Lemma IsDoubleW_junk neg ds k s c r : number_text neg ds k s -> ascii_text s -> (c < 0 \/ 128 <= c)%Z ->
  snd (IsDoubleW (widen s ++ c :: r)) = false.
Proof.
  intros H A C. unfold IsDoubleW. rewrite map_app, narrow_widen by exact A. cbn [map].
  assert (N : narrow c = "255"%char). { unfold narrow. destruct (Z.leb_spec 0 c); destruct (Z.ltb_spec c 128); cbn [andb]; try reflexivity; lia. }
  rewrite N. rewrite (strtod_number_tail neg ds k s ("255"%char :: map narrow r) H).
  - cbn [snd]. apply Nat.eqb_neq. rewrite app_length. unfold widen. rewrite map_length. cbn [length]. lia.
  - vm_compute. intuition discriminate.
Qed.
