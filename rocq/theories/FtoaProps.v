(** Properties of texts of doubles and of wide strings. *)
From Coq Require Import ZArith Reals Lra Lia Ascii String List Bool.
From Flocq Require Import Core BinarySingleNaN.
From Verif Require Import Base StrModel StrSpec FloatModel FloatProofs NumModel NumSpec NumProofs FtoaModel FtoaSpec FtoaProofs FtoaProofs2 FtoaProofs3.
Import ListNotations.

(** ** C128 *)
(** The text of a number is its value in whole millionths, in plain notation. *)
Theorem C128_text : forall x : f64, is_finite x = true ->
  exists s ip fp, ftoa x = Ok s /\ plain_text (Bsign x) ip fp s /\ plain_value (Bsign x) ip fp = millionths (B2R x).
Proof. exact ftoa_plain. Qed.
Print Assumptions C128_text.

(** Two numbers have the same text exactly if they have the same sign and the
    same value in millionths. *)
Theorem C128_same : forall x y : f64, is_finite x = true -> is_finite y = true ->
  (ftoa x = ftoa y <-> Bsign x = Bsign y /\ millionths (B2R x) = millionths (B2R y)).
Proof. exact ftoa_same. Qed.
Print Assumptions C128_same.

(** A double that is a whole number is written as that integer. *)
Theorem C128_whole : forall (x : f64) z, is_finite x = true -> B2R x = IZR z -> Bsign x = (z <? 0)%Z -> ftoa x = Ok (itoa z).
Proof. exact ftoa_int. Qed.
Print Assumptions C128_whole.

(** Infinities are written as words that are read back. *)
Theorem C128_infinite : forall b, exists s, ftoa (B754_infinity b) = Ok s /\ IsDouble f64 strtod s = (B754_infinity b, true).
Proof. intros [|]; [exists (str "-inf")|exists (str "inf")]; split; vm_compute; reflexivity. Qed.
Print Assumptions C128_infinite.

Example C128_ex : ftoa (fst (strtod (str "-1234.5"))) = Ok (str "-1234.5") /\ ftoa (fst (strtod (str "0.1"))) = Ok (str "0.1") /\
  ftoa (of_int (-100)) = Ok (str "-100") /\ is_finite (fst (strtod (str "-1234.5"))) = true.
Proof. repeat split; vm_compute; reflexivity. Qed.

(** ** C129 *)
(** Read back, the text gives a number at most a millionth away, of the same sign. *)
Theorem C129_close : forall x : f64, is_finite x = true ->
  exists s y, ftoa x = Ok s /\ IsDouble f64 strtod s = (y, true) /\ is_finite y = true /\ Bsign y = Bsign x /\
              (Rabs (B2R y - B2R x) <= / 1000000)%R.
Proof. exact ftoa_close. Qed.
Print Assumptions C129_close.

(** It gives the number itself exactly if that is the double of a number of
    whole millionths. *)
Theorem C129_exact : forall (x : f64) s, is_finite x = true -> ftoa x = Ok s ->
  (IsDouble f64 strtod s = (x, true) <-> exists z, B2R x = to_double (IZR z * bpow radix10 (-6))).
Proof. exact ftoa_exact. Qed.
Print Assumptions C129_exact.

(** Numbers of 2^33 and more always survive. *)
Theorem C129_large : forall (x : f64) s, is_finite x = true -> (bpow radix2 33 <= Rabs (B2R x))%R -> ftoa x = Ok s ->
  IsDouble f64 strtod s = (x, true).
Proof. intros x s F L E. apply C129_exact; auto. apply survives; auto. apply large_back; auto. Qed.
Print Assumptions C129_large.

(** Small numbers do not: up to half a millionth everything is written as zero. *)
Theorem C129_tiny_refuted : forall x : f64, is_finite x = true -> B2R x <> 0%R -> (Rabs (B2R x) <= / 2000000)%R ->
  exists s, ftoa x = Ok s /\ s = (if Bsign x then str "-0" else str "0") /\ IsDouble f64 strtod s = (B754_zero (Bsign x), true) /\
            IsDouble f64 strtod s <> (x, true).
Proof.
  intros x F N H. eexists. split; [apply ftoa_tiny; auto|]. split; [reflexivity|].
  assert (E : IsDouble f64 strtod (if Bsign x then str "-0" else str "0") = (B754_zero (Bsign x), true)) by (destruct (Bsign x); vm_compute; reflexivity).
  split; [exact E|]. rewrite E. intros K. apply (f_equal fst) in K. cbn [fst] in K. apply N. rewrite <- K. reflexivity.
Qed.
Print Assumptions C129_tiny_refuted.

Example C129_ex : ftoa (fst (strtod (str "3.14159265"))) = Ok (str "3.141593") /\
  ftoa (fst (strtod (str "1e-7"))) = Ok (str "0") /\
  ftoa (fst (strtod (str "12345678901.123456"))) = Ok (str "12345678901.123455") /\
  Bcompare (fst (IsDouble f64 strtod (str "12345678901.123455"))) (fst (strtod (str "12345678901.123456"))) = Some Eq.
Proof. split; [vm_compute; reflexivity|]. split; [vm_compute; reflexivity|]. split; vm_compute; reflexivity. Qed.

(** ** C130 *)
(** In any encoding without shift states, a wide string of characters that have
    an encoding becomes their encodings, and back. *)
Theorem C130_narrow : forall enc dec1 w s, encoding enc dec1 -> Forall (fun c => c <> 0%Z) w -> encodes enc w s ->
  (Z.of_nat (length s) < 2 ^ 63)%Z -> wtoa enc w = Ok s /\ atow dec1 s = Ok w.
Proof. intros enc dec1 w s C F E L. split; [eapply wtoa_ok; eauto|eapply atow_ok; eauto]. Qed.
Print Assumptions C130_narrow.

(** In particular ASCII texts widen and narrow in the "C" locale. *)
Theorem C130_ascii : forall s, ascii_text s -> ~ In "000"%char s -> (Z.of_nat (length s) < 2 ^ 63)%Z ->
  atow ascii_dec1 s = Ok (widen s) /\ wtoa ascii_enc (widen s) = Ok s.
Proof.
  intros s A N L. split; [apply atow_widen; auto|]. apply (wtoa_ok ascii_enc ascii_dec1 ascii_encoding); auto; [apply widen_nonzero, N|apply encodes_widen, A].
Qed.
Print Assumptions C130_ascii.

(** Every other wide string, one with a character without encoding, overruns a
    buffer of length zero. *)
Theorem C130_wide_refuted : forall enc w, Forall (fun c => c <> 0%Z) w -> Exists (fun c => enc c = None) w -> wtoa enc w = UB.
Proof. intros enc w F E. apply wtoa_bad. rewrite cwide_id; auto. Qed.
Print Assumptions C130_wide_refuted.

(** So does every byte text that is no encoding of anything. *)
Theorem C130_bytes_refuted : forall enc dec1 s, encoding enc dec1 -> enc 0%Z = Some ["000"%char] -> ~ In "000"%char s ->
  (forall w, ~ encodes enc w s) -> atow dec1 s = UB.
Proof.
  intros enc dec1 s C Z N H. destruct (decodes_or_not enc dec1 C (length s) s (le_n _) N) as [(w & _ & W)|U].
  - destruct (H w W).
  - apply (atow_bad enc dec1 C); [|left; exact Z]. rewrite cbytes_id by exact N. exact U.
Qed.
Print Assumptions C130_bytes_refuted.

(** A NUL ends the text that is converted. *)
Theorem C130_nul_refuted : forall enc dec1 w s t, encoding enc dec1 -> Forall (fun c => c <> 0%Z) w -> encodes enc w s ->
  (Z.of_nat (length s) < 2 ^ 63)%Z -> wtoa enc (w ++ 0%Z :: t) = Ok s.
Proof.
  intros enc dec1 w s t C F E L. rewrite wtoa_cut. replace (cwide (w ++ 0%Z :: t)) with w; [eapply wtoa_ok; eauto|].
  clear - F. induction F as [|c w H _ IH]; [reflexivity|]. cbn. destruct (Z.eqb_spec c 0); [contradiction|]. f_equal. exact IH.
Qed.
Print Assumptions C130_nul_refuted.

(** ftow widens the text of the number. *)
Theorem C130_ftow : forall x : f64, is_finite x = true -> exists s, ftoa x = Ok s /\ ftow ascii_dec1 x = Ok (widen s).
Proof. exact ftow_finite. Qed.
Print Assumptions C130_ftow.

(** Whole numbers in wide strings are recognised like those in byte strings:
    exactly the canonical texts of numbers in range, and with their value. *)
Theorem C130_IsInt : forall w v, IsIntW w = (v, true) <-> exists s, canonical s v /\ in_int v /\ w = widen s.
Proof. exact IsIntW_char. Qed.
Print Assumptions C130_IsInt.

Theorem C130_IsInt64 : forall w v, IsInt64W w = (v, true) <-> exists s, canonical s v /\ in_long v /\ w = widen s.
Proof. exact IsInt64W_char. Qed.
Print Assumptions C130_IsInt64.

Theorem C130_IsUInt : forall w v, (IsUIntW w = (v, true) <-> exists s, canonical s v /\ (0 <= v <= ULONG_MAX)%Z /\ w = widen s) /\
  IsUInt64W w = IsUIntW w.
Proof. intros w v. rewrite <- IsUInt64W_char, IsUIntW_same. split; reflexivity. Qed.
Print Assumptions C130_IsUInt.

(** Numbers with fractions in ASCII are read as in byte strings. *)
Theorem C130_IsDouble : forall s, ascii_text s -> IsDoubleW (widen s) = IsDouble f64 strtod s.
Proof. exact IsDoubleW_widen. Qed.
Print Assumptions C130_IsDouble.

(** A number with a character beyond ASCII behind it is refused. *)
Theorem C130_IsDouble_other : forall neg ds k s c r, number_text neg ds k s -> ascii_text s -> (c < 0 \/ 128 <= c)%Z ->
  snd (IsDoubleW (widen s ++ c :: r)) = false.
Proof. exact IsDoubleW_junk. Qed.
Print Assumptions C130_IsDouble_other.

Example C130_ex : wtoa ascii_enc [72; 105; 33]%Z = Ok (str "Hi!") /\ atow ascii_dec1 (str "Hi!") = Ok [72; 105; 33]%Z /\
  wtoa ascii_enc [72; 228]%Z = UB /\ atow ascii_dec1 (str "H" ++ ["228"%char]) = UB /\
  wtoa ascii_enc [72; 0; 73]%Z = Ok (str "H") /\ IsIntW (widen (str "-42")) = ((-42)%Z, true) /\ snd (IsIntW (widen (str "042"))) = false /\
  snd (IsIntW [49; 228]%Z) = false /\ snd (IsDoubleW [49; 228]%Z) = false /\ ftow ascii_dec1 (of_int 7) = Ok [55]%Z.
Proof. repeat split; vm_compute; reflexivity. Qed.

(** The encoding of that case is one, and the hypotheses of the refutations can
    be met in it. *)
Example C130_ex_hyp : encoding ascii_enc ascii_dec1 /\ ascii_enc 0 = Some ["000"%char] /\ ascii_enc 228 = None /\
  (forall w, ~ encodes ascii_enc w (str "H" ++ ["228"%char])).
Proof.
  split; [exact ascii_encoding|]. split; [reflexivity|]. split; [reflexivity|]. intros w E.
  assert (A : forall w s, encodes ascii_enc w s -> Forall (fun c => (code c < 128)%Z) s).
  { clear. intros w s H. induction H as [|c b w s H _ IH]; [constructor|]. apply Forall_app. split; [|exact IH].
    unfold ascii_enc in H. destruct ((0 <=? c)%Z && (c <? 128)%Z) eqn:R; [|discriminate]. injection H as <-. apply andb_true_iff in R as [R1 R2].
    apply Z.leb_le in R1. apply Z.ltb_lt in R2. constructor; [|constructor]. rewrite code_of by lia. exact R2. }
  apply A in E. apply Forall_app in E as [_ E]. inversion E as [|? ? K _]. vm_compute in K. discriminate K.
Qed.
