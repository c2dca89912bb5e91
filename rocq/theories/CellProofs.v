(** Lemmas about cell values. *)
From Coq Require Import ZArith Reals Ascii List Bool Lia Lra ZifyBool ZifyNat Permutation.
From Flocq Require Import Core BinarySingleNaN.
From Verif Require Import Base ListLib BasicModel FloatModel FloatProofs TypeModel MongoModel RasterModel CellModel CellSpec.
Import ListNotations.
Open Scope Z_scope.
Open Scope outcome_scope.

Lemma wrap_id lo hi z : lo <= z <= hi -> wrap lo hi z = z.
Proof. intros H. unfold wrap. rewrite Z.mod_small by lia. lia. Qed.
Lemma wrap_range lo hi z : lo <= hi -> lo <= wrap lo hi z <= hi.
Proof. intros H. unfold wrap. pose proof (Z.mod_pos_bound (z - lo) (hi - lo + 1)). lia. Qed.
Lemma wrap_again lo hi z lo' hi' : lo <= hi -> hi - lo = hi' - lo' -> wrap lo hi (wrap lo' hi' z) = wrap lo hi z.
Proof.
  intros H E. unfold wrap. f_equal. rewrite <- E. set (m := hi - lo + 1).
  replace (lo' + (z - lo') mod m - lo) with ((z - lo') mod m + (lo' - lo)) by lia. rewrite Zplus_mod_idemp_l. f_equal. lia.
Qed.

Lemma limits_kind t lo hi tlo thi : limits t = Some ((lo, tlo), (hi, thi)) -> integer_type t /\ lo = least t /\ hi = most t.
Proof. destruct t; cbn; intros H; try discriminate; injection H as <- <- <- <-; (split; [discriminate|split; reflexivity]). Qed.
Lemma limits_some t : integer_type t -> exists tlo thi, limits t = Some ((least t, tlo), (most t, thi)).
Proof. destruct t; intros H; try (destruct (H eq_refl)); eexists _, _; reflexivity. Qed.
Lemma int_range_kind t : integer_type t -> int_range t = Some (least t, most t).
Proof. destruct t; intros H; try (destruct (H eq_refl)); reflexivity. Qed.
Lemma fits_ordered t : least t <= most t.
Proof. destruct t; cbn; lia. Qed.

Ltac types H := match type of H with integer_type ?t => destruct t; try (exfalso; apply H; reflexivity); clear H end.

Definition rep (i : ity) (z : Z) : Prop :=
  if snd i then - 2 ^ (fst i - 1) <= z <= 2 ^ (fst i - 1) - 1 else 0 <= z <= 2 ^ fst i - 1.
Lemma wrap_rep i z : rep i z -> wrap_ity i z = z.
Proof. unfold rep, wrap_ity. destruct (snd i); intros H; apply wrap_id; exact H. Qed.
Lemma less_rep s z c l : rep (common (promoted s) l) z -> rep (common (promoted s) l) c -> less s (VI z) c l = (z <? c).
Proof. intros H1 H2. unfold less. rewrite !wrap_rep by assumption. reflexivity. Qed.
Lemma greater_rep s z c l : rep (common (promoted s) l) z -> rep (common (promoted s) l) c -> greater s (VI z) c l = (c <? z).
Proof. intros H1 H2. unfold greater. rewrite !wrap_rep by assumption. reflexivity. Qed.
Lemma greater_top s z c w l : common (promoted s) l = (w, false) -> 0 <= w -> c = 2 ^ w - 1 -> greater s (VI z) c l = false.
Proof.
  intros E W ->. unfold greater. rewrite E. pose proof (Z.pow_pos_nonneg 2 w ltac:(lia) W).
  rewrite (wrap_rep (w, false) (2 ^ w - 1)) by (unfold rep; cbn [fst snd]; lia).
  unfold wrap_ity. cbn [fst snd]. pose proof (wrap_range 0 (2 ^ w - 1) z). lia.
Qed.
Lemma less_wrapped s z c l w : common (promoted s) l = (w, false) -> rep (w, false) z -> rep (w, false) (2 ^ w + c) -> less s (VI z) c l = (z <? 2 ^ w + c).
Proof.
  intros E H1 H2. unfold less. rewrite E, (wrap_rep _ z) by assumption. f_equal. unfold wrap_ity, wrap. cbn [fst snd].
  unfold rep in H2. cbn [fst snd] in H2. replace (2 ^ w - 1 - 0 + 1) with (2 ^ w) by lia. rewrite Z.add_0_l, Z.sub_0_r.
  replace c with (2 ^ w + c + (-1) * 2 ^ w) at 1 by lia. rewrite Z.mod_add by lia. apply Z.mod_small. lia.
Qed.

Ltac pows := change (2 ^ (8 - 1)) with 128 in *; change (2 ^ (16 - 1)) with 32768 in *; change (2 ^ (32 - 1)) with 2147483648 in *;
  change (2 ^ (64 - 1)) with 9223372036854775808 in *; change (2 ^ 8) with 256 in *; change (2 ^ 16) with 65536 in *;
  change (2 ^ 32) with 4294967296 in *; change (2 ^ 64) with 18446744073709551616 in *.
Ltac repr := match goal with |- rep ?i _ => let v := eval vm_compute in i in change i with v end; unfold rep; cbn [fst snd]; pows; lia.
Ltac bounds F := unfold fits, least, most, int_kind in F |- *; pows.

(** Counted as illegal iff out of range, for the pairs compared without harm. *)
Lemma legal s t z tlo thi : integer_type s -> fits s z -> integer_type t -> ~ mixed s t ->
  limits t = Some ((least t, tlo), (most t, thi)) ->
  less s (VI z) (least t) tlo || greater s (VI z) (most t) thi = negb ((least t <=? z) && (z <=? most t)).
Proof.
  intros HS F HT M L.
  assert (M' : match int_kind s, int_kind t with Some (w, false), Some (w', true) => w < 32 \/ w < w' | _, _ => True end).
  { destruct (int_kind s) as [[w []]|] eqn:E1; auto. destruct (int_kind t) as [[w' []]|] eqn:E2; auto.
    destruct (Z_lt_dec w 32); [left; lia|]. destruct (Z_lt_dec w w'); [right; lia|]. destruct M. exists w, w'. repeat split; auto; lia. }
  clear M.
  assert (H1 : less s (VI z) (least t) tlo = (z <? least t)).
  { types HS; types HT; cbn in L; injection L as <- <-; cbn in M'; try (exfalso; destruct M'; discriminate);
      bounds F; apply less_rep; repr. }
  assert (H2 : greater s (VI z) (most t) thi = (most t <? z)).
  { types HS; types HT; cbn in L; injection L as <- <-; cbn in M'; try (exfalso; destruct M'; discriminate);
      bounds F; try (apply greater_rep; repr). all: first [rewrite (greater_top _ _ _ 32) by (reflexivity || lia); lia | rewrite (greater_top _ _ _ 64) by (reflexivity || lia); lia]. }
  rewrite H1, H2. lia.
Qed.

(** For the others every value is. *)
Lemma illegal s t z tlo thi : mixed s t -> fits s z -> limits t = Some ((least t, tlo), (most t, thi)) ->
  less s (VI z) (least t) tlo || greater s (VI z) (most t) thi = true.
Proof.
  intros (w & w' & K1 & W & K2 & W') F L.
  destruct s; cbn in K1; try discriminate; injection K1 as <-; try lia;
  destruct t; cbn in K2; try discriminate; injection K2 as <-; try lia; cbn in L; injection L as <- <-; bounds F;
    (first [rewrite (less_wrapped _ _ _ _ 32) by (reflexivity || repr) | rewrite (less_wrapped _ _ _ _ 64) by (reflexivity || repr)]); (rewrite greater_rep by repr); pows; lia.
Qed.

Lemma cvt_int t z : integer_type t -> cvt t (VI z) = Ok (VI (wrap (least t) (most t) z)).
Proof. intros H. pose proof (int_range_kind t H) as E. types H; unfold cvt; rewrite E; reflexivity. Qed.
