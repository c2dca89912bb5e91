(** Bytes of cell values; metadata written and read. *)
From Coq Require Import ZArith Reals Ascii String List Bool Lia Lra ZifyBool.
From Flocq Require Import Core BinarySingleNaN.
From Flocq Require Binary Bits.
From Verif Require ArrayProofs.
From Verif Require Import Base ListLib StrModel StrProofs MapModel MapProofs RasterModel BasicModel FloatModel FloatProofs CoordFloatModel TypeModel MongoModel MongoProofs CopyModel NumModel NumProofs AscModel CellModel CellSpec CellProofs CellProofs2 GdalModel GdalProofs3 GridfsModel GridfsSpec.
Import ListNotations.
Open Scope Z_scope.
Open Scope outcome_scope.

(** ** Bytes *)
Lemma le_length n z : length (le_bytes n z) = n.
Proof. revert z. induction n; intros; cbn; auto. Qed.

Lemma le_back n z : le_value (le_bytes n z) = z mod 2 ^ (8 * Z.of_nat n).
Proof.
  revert z. induction n as [|n IH]; intros z; [cbn; rewrite Z.mod_1_r; reflexivity|].
  cbn [le_bytes le_value]. rewrite IH.
  assert (B : 0 <= z mod 256 < 256) by (apply Z.mod_pos_bound; lia).
  rewrite nat_ascii_embedding by (change 256%nat with (Z.to_nat 256); lia). rewrite Z2Nat.id by lia.
  replace (8 * Z.of_nat (S n)) with (8 + 8 * Z.of_nat n) by lia. rewrite Z.pow_add_r by lia.
  change (2 ^ 8) with 256. rewrite (Z.rem_mul_r z 256 (2 ^ (8 * Z.of_nat n))); lia.
Qed.

Lemma bits32_back x : of_bits32 (le_value (le_bytes 4 (bits32 x))) = x.
Proof.
  rewrite le_back. unfold of_bits32, bits32, Bits.b32_of_bits, Bits.bits_of_b32.
  pose proof (Bits.bits_of_binary_float_range 23 8 eq_refl eq_refl (Binary.BSN2B 24 128 nan32 x)) as R.
  change (8 * Z.of_nat 4) with 32. change (2 ^ (23 + 8 + 1)) with (2 ^ 32) in R. rewrite Z.mod_small by exact R.
  rewrite Bits.binary_float_of_bits_of_binary_float. apply Binary.B2BSN_BSN2B.
Qed.
Lemma bits64_back x : of_bits64 (le_value (le_bytes 8 (bits64 x))) = x.
Proof.
  rewrite le_back. unfold of_bits64, bits64, Bits.b64_of_bits, Bits.bits_of_b64.
  pose proof (Bits.bits_of_binary_float_range 52 11 eq_refl eq_refl (Binary.BSN2B 53 1024 nan64 x)) as R.
  change (8 * Z.of_nat 8) with 64. change (2 ^ (52 + 11 + 1)) with (2 ^ 64) in R. rewrite Z.mod_small by exact R.
  rewrite Bits.binary_float_of_bits_of_binary_float. apply Binary.B2BSN_BSN2B.
Qed.

Lemma encode_length t v : length (encode t v) = Z.to_nat (size_of t).
Proof. unfold encode. destruct v; apply le_length. Qed.

Lemma decode_encode t v : of_type t v -> decode t (encode t v) = v.
Proof.
  destruct v as [z|x|x]; cbn [of_type].
  - intros [I F]. assert (W : forall w lo hi, 0 <= w -> lo <= z <= hi -> hi - lo = 2 ^ w - 1 -> wrap lo hi (z mod 2 ^ w) = z).
    { intros w lo hi W R E. assert (P : 0 < 2 ^ w) by (apply Z.pow_pos_nonneg; lia). unfold wrap. replace (hi - lo + 1) with (2 ^ w) by lia.
      replace ((z mod 2 ^ w - lo) mod 2 ^ w) with ((z - lo) mod 2 ^ w).
      - rewrite Z.mod_small by lia. lia.
      - rewrite Zminus_mod_idemp_l. reflexivity. }
    assert (D : decode t (le_bytes (Z.to_nat (size_of t)) z) = VI (wrap (least t) (most t) (z mod 2 ^ (8 * size_of t)))).
    { unfold decode. rewrite (int_range_kind t I), le_back. assert (0 <= size_of t) by (destruct t; cbn; lia). rewrite Z2Nat.id by lia. destruct t; try reflexivity; exfalso; apply I; reflexivity. }
    unfold encode. rewrite D. f_equal. apply W; [destruct t; cbn; lia|exact F|]. destruct t; try reflexivity; exfalso; apply I; reflexivity.
  - intros ->. unfold encode, decode. cbn [size_of]. change (Z.to_nat 4) with 4%nat. rewrite bits32_back. reflexivity.
  - intros ->. unfold encode, decode. cbn [size_of]. change (Z.to_nat 8) with 8%nat. rewrite bits64_back. reflexivity.
Qed.

Lemma size_pos t : t <> RDT_Unknown -> 1 <= size_of t <= 8.
Proof. destruct t; cbn; intros H; try lia. congruence. Qed.

Lemma stream_length t vs : Z.of_nat (length (flat_map (encode t) vs)) = Z.of_nat (length vs) * size_of t.
Proof.
  induction vs as [|v vs IH]; [reflexivity|]. cbn [flat_map length]. rewrite app_length, encode_length, Nat2Z.inj_add, IH.
  assert (0 <= size_of t) by (destruct t; cbn; lia). rewrite Z2Nat.id by lia. lia.
Qed.

Lemma skipn_stream t vs : forall i v, nth_error vs i = Some v ->
  firstn (Z.to_nat (size_of t)) (skipn (i * Z.to_nat (size_of t)) (flat_map (encode t) vs)) = encode t v.
Proof.
  induction vs as [|w vs IH]; intros [|i] v E; try discriminate; cbn [flat_map].
  - injection E as ->. cbn [Nat.mul skipn]. rewrite firstn_app, encode_length, Nat.sub_diag. cbn [firstn]. rewrite app_nil_r.
    rewrite firstn_all2; [reflexivity|]. rewrite encode_length. lia.
  - cbn [Nat.mul]. rewrite skipn_app, encode_length. replace (Z.to_nat (size_of t) + i * Z.to_nat (size_of t) - Z.to_nat (size_of t))%nat with (i * Z.to_nat (size_of t))%nat by lia.
    rewrite skipn_all2 by (rewrite encode_length; lia). cbn [app]. apply IH. exact E.
Qed.

(** Extra bytes at the end do no harm. *)
Lemma cell_back t vs rest i v : nth_error vs i = Some v -> of_type t v ->
  cell_at t (flat_map (encode t) vs ++ rest) (Z.of_nat i) = Ok v.
Proof.
  intros E O. unfold cell_at. assert (L : (i < length vs)%nat) by (apply nth_error_Some; congruence).
  pose proof (stream_length t vs) as SL. assert (P : 0 <= size_of t) by (destruct t; cbn; lia).
  rewrite app_length, Nat2Z.inj_add, SL.
  replace ((0 <=? Z.of_nat i) && ((Z.of_nat i + 1) * size_of t <=? Z.of_nat (length vs) * size_of t + Z.of_nat (length rest))) with true.
  2: { assert ((Z.of_nat i + 1) * size_of t <= Z.of_nat (length vs) * size_of t) by (apply Z.mul_le_mono_nonneg_r; lia). lia. }
  f_equal. replace (Z.to_nat (Z.of_nat i * size_of t)) with (i * Z.to_nat (size_of t))%nat by (rewrite Z2Nat.inj_mul, Nat2Z.id by lia; reflexivity).
  rewrite skipn_app, firstn_app.
  replace (Z.to_nat (size_of t) - length (skipn (i * Z.to_nat (size_of t)) (flat_map (encode t) vs)))%nat with 0%nat.
  - cbn [firstn]. rewrite app_nil_r, (skipn_stream t vs i v E). apply decode_encode. exact O.
  - rewrite skipn_length. assert (Q : length (flat_map (encode t) vs) = (length vs * Z.to_nat (size_of t))%nat).
    { apply Nat2Z.inj. rewrite SL, Nat2Z.inj_mul, Z2Nat.id by lia. reflexivity. }
    rewrite Q. assert ((S i * Z.to_nat (size_of t) <= length vs * Z.to_nat (size_of t))%nat) by (apply Nat.mul_le_mono_r; lia). cbn [Nat.mul] in H. lia.
Qed.

Lemma cells_back t vs rest : Forall (of_type t) vs -> cells_at t (flat_map (encode t) vs ++ rest) (Z.of_nat (length vs)) = Ok vs.
Proof.
  intros F. unfold cells_at.
  assert (Q : forall k, (k <= length vs)%nat -> ofold (fun acc i => let* v := cell_at t (flat_map (encode t) vs ++ rest) i in Ok (acc ++ [v])) (zseq (Z.of_nat k)) [] = Ok (firstn k vs)).
  { induction k as [|k IH]; intros K; [reflexivity|]. replace (Z.of_nat (S k)) with (Z.of_nat k + 1) by lia.
    rewrite zseq_S by lia. rewrite ofold_app, IH by lia. cbn [obind ofold]. destruct (nth_error vs k) as [v|] eqn:E; [|apply nth_error_None in E; lia].
    rewrite (cell_back t vs rest k v E) by (exact (proj1 (Forall_forall _ _) F v (nth_error_In _ _ E))). cbn [obind]. f_equal.
    rewrite (ArrayProofs.firstn_S_nth vs k v E). reflexivity. }
  rewrite Q by lia. rewrite firstn_all. reflexivity.
Qed.
