(** Property theorems about src/utils_string (C01-C05). *)
From Coq Require Import ZArith Ascii String List Bool.
From Verif Require Import Base StrModel StrSpec StrProofs.
Import ListNotations.
Open Scope Z_scope.

(** C01. Splitting on a delimiter: pieces free of the delimiter; joining gives
    the text back, minus one trailing delimiter if there is one. *)
Theorem C01_split_join : forall (s : bytes) (d : ascii),
  let p := SplitString_d s d in
  Forall (fun f => ~ In d f) p /\
  ((s = [] /\ p = []) \/
   (s <> [] /\ p <> [] /\ ends_with d s /\ s = join d p ++ [d]) \/
   (s <> [] /\ p <> [] /\ ~ ends_with d s /\ s = join d p)).
Proof. exact SplitString_d_ok. Qed.
Print Assumptions C01_split_join.

(** C01, other direction: pieces without the delimiter whose last one is not
    empty are recovered from their joined text. *)
Theorem C01_join_split : forall (d : ascii) (p : list bytes),
  Forall (fun f => ~ In d f) p -> p <> [] -> last p [] <> [] ->
  SplitString_d (join d p) d = p.
Proof. exact split_join. Qed.
Print Assumptions C01_join_split.

Example C01_ex : SplitString_d (str "a,,bc,") "," = [str "a"; str ""; str "bc"].
Proof. reflexivity. Qed.
Example C01_ex_hyp :
  Forall (fun f => ~ In ","%char f) [str "a"; str ""; str "bc"] /\ last [str "a"; str ""; str "bc"] [] <> [].
Proof. split; [repeat constructor; cbn; intuition congruence|discriminate]. Qed.

(** C02. Whitespace split. [Words] is a function of the text
    ([C02_words_unique]), so the theorems pin the result down. *)
Theorem C02_split_words : forall s : bytes,
  (exists c, In c s /\ isspace c = false) -> ~ ends_blank s ->
  Words s (SplitString s).
Proof. exact SplitString_words. Qed.
Print Assumptions C02_split_words.

Theorem C02_words_unique : forall s ws1 ws2, Words s ws1 -> Words s ws2 -> ws1 = ws2.
Proof. exact Words_det. Qed.
Print Assumptions C02_words_unique.

(** What happens otherwise: the last word is repeated ... *)
Theorem C02_trailing_blank_repeats : forall s ws,
  Words s ws -> ws <> [] -> ends_blank s -> SplitString s = ws ++ [last ws []].
Proof. exact SplitString_trailing. Qed.
Print Assumptions C02_trailing_blank_repeats.

(** ... and a blank text has one empty "word". *)
Theorem C02_blank : forall s, all_space s -> SplitString s = [[]].
Proof. exact SplitString_blank. Qed.
Print Assumptions C02_blank.

(** The unrestricted claim is false. *)
Theorem C02_split_words_refuted : exists s, (exists c, In c s /\ isspace c = false) /\ ~ Words s (SplitString s).
Proof. exact SplitString_words_refuted. Qed.
Print Assumptions C02_split_words_refuted.

(** The white space of these statements. *)
Theorem C02_space_characters : forall c, isspace c = true <-> In c space_chars.
Proof. exact isspace_iff. Qed.
Print Assumptions C02_space_characters.

Example C02_ex : SplitString (str "  ab c") = [str "ab"; str "c"] /\
                 SplitString (str "ab c ") = [str "ab"; str "c"; str "c"].
Proof. split; reflexivity. Qed.

(** C03. *)
Theorem C03_trim : forall s : bytes, trim_of s (Trim s).
Proof. exact (fun s => proj1 (trim_of_ok _ _) (Trim_trim_ok s)). Qed.
Print Assumptions C03_trim.

Theorem C03_trimspaces : forall s : bytes, trim_of s (TrimSpaces s).
Proof. exact (fun s => proj1 (trim_of_ok _ _) (TrimSpaces_trim_ok s)). Qed.
Print Assumptions C03_trimspaces.

Theorem C03_unique : forall s t u, trim_of s t -> trim_of s u -> t = u.
Proof. exact (fun s t u A B => trim_ok_unique s t u (proj2 (trim_of_ok _ _) A) (proj2 (trim_of_ok _ _) B)). Qed.
Print Assumptions C03_unique.

Theorem C03_idempotent : forall s, Trim (Trim s) = Trim s.
Proof. exact Trim_idem. Qed.
Print Assumptions C03_idempotent.

Theorem C03_same_function : forall s, Trim s = TrimSpaces s.
Proof. exact (fun s => trim_ok_unique s _ _ (Trim_trim_ok s) (TrimSpaces_trim_ok s)). Qed.
Print Assumptions C03_same_function.

Example C03_ex : Trim ("013"%char :: str "  a b " ++ ["009"; "010"; "013"]%char) = str "a b" /\ Trim (str "   ") = [].
Proof. split; reflexivity. Qed.

(** C04. *)
Theorem C04_match_iff : forall a b, StringMatch a b = true <-> Forall2 same_letter a b.
Proof. exact StringMatch_iff. Qed.
Print Assumptions C04_match_iff.

Theorem C04_match_equivalence :
  (forall a, StringMatch a a = true) /\
  (forall a b, StringMatch a b = StringMatch b a) /\
  (forall a b c, StringMatch a b = true -> StringMatch b c = true -> StringMatch a c = true).
Proof. exact StringMatch_equiv. Qed.
Print Assumptions C04_match_equivalence.

Theorem C04_upper : forall s, GetUpper (GetUpper s) = GetUpper s /\ length (GetUpper s) = length s.
Proof. exact (fun s => conj (GetUpper_idem s) (map_length toupper s)). Qed.
Print Assumptions C04_upper.

Example C04_ex : StringMatch (str "GeoTiff") (str "GEOTIFF") = true /\ StringMatch (str "a") (str "ab") = false.
Proof. split; reflexivity. Qed.

(** C05. *)
Theorem C05_IsInt_roundtrip : forall z, in_int z -> IsInt (itoa z) = (z, true).
Proof. exact IsInt_itoa. Qed.
Print Assumptions C05_IsInt_roundtrip.

Theorem C05_IsInt_exact : forall s v, IsInt s = (v, true) <-> canonical s v /\ in_int v.
Proof. exact IsInt_char. Qed.
Print Assumptions C05_IsInt_exact.

Theorem C05_IsInt64_exact : forall s v, IsInt64 s = (v, true) <-> canonical s v /\ in_long v.
Proof. exact IsInt64_char. Qed.
Print Assumptions C05_IsInt64_exact.

Theorem C05_IsUInt64_exact : forall s v, IsUInt64 s = (v, true) <-> canonical s v /\ 0 <= v <= ULONG_MAX.
Proof. exact IsUInt64_char. Qed.
Print Assumptions C05_IsUInt64_exact.

Theorem C05_text_canonical : forall z, canonical (itoa z) z.
Proof. exact itoa_canonical. Qed.
Print Assumptions C05_text_canonical.

Theorem C05_canonical_unique : forall s t z, canonical s z -> canonical t z -> s = t.
Proof. exact canonical_unique. Qed.
Print Assumptions C05_canonical_unique.

(** The digits of these statements. *)
Theorem C05_digit_characters : forall c, isdigit c = true <-> In c digit_chars.
Proof. exact isdigit_iff. Qed.
Print Assumptions C05_digit_characters.

Example C05_ex : itoa (-2147483648) = str "-2147483648" /\ IsInt (str "2147483648") = (-2147483648, false)
  /\ snd (IsInt (str "007")) = false /\ snd (IsInt (str "")) = false /\ IsInt (str "-12") = (-12, true).
Proof. repeat split; reflexivity. Qed.

(** C57. Whatever [strtod] does (C only guarantees that it does not read past
    the end), the empty text counts as a number. *)
Theorem C57_empty_is_number : forall (V : Type) (strtod : bytes -> V * nat),
  (forall s, (snd (strtod s) <= length s)%nat) -> IsNumber V strtod [] = true.
Proof. exact IsNumber_empty. Qed.
Print Assumptions C57_empty_is_number.

Example C57_ex : forall s : bytes, (snd ((fun _ : bytes => (0, 0%nat)) s) <= length s)%nat.
Proof. intros s. apply Nat.le_0_l. Qed.
