(** Lemmas about BSON metadata and collection names. *)
From Coq Require Import ZArith Reals Ascii String List Bool Lia Lra.
From Flocq Require Import Core BinarySingleNaN.
From Verif Require Import Base StrModel StrSpec StrProofs FloatModel FloatProofs TypeModel CoordFloatModel RasterModel TimeModel MongoModel.
Import ListNotations.
Open Scope Z_scope.

(* ---------- numbers ---------- *)

Lemma one_32 : generic_format radix2 (SpecFloat.fexp 24 128) 1.
Proof. change 1%R with (bpow radix2 0). apply generic_format_bpow. cbn. lia. Qed.
Lemma one_64 : generic_format radix2 (SpecFloat.fexp 53 1024) 1.
Proof. change 1%R with (bpow radix2 0). apply generic_format_bpow. cbn. lia. Qed.

(** A number that is infinite, or finite and at least 1 in size. *)
Definition large {p e} (x : binary_float p e) : Prop :=
  (exists s, x = B754_infinity s) \/ (is_finite x = true /\ (1 <= Rabs (B2R x))%R).

Lemma overflow_inf p e (Hp : Prec_gt_0 p) (Hm : Prec_lt_emax p e) s (x : binary_float p e) :
  B2SF x = binary_overflow p e mode_NE s -> exists s, x = B754_infinity s.
Proof. unfold binary_overflow. cbn [overflow_to_inf]. destruct x; cbn; try discriminate. eauto. Qed.

Lemma f32_norm_large m e s : (1 <= Rabs (F2R (Float radix2 m e)))%R -> large (f32_norm m e s).
Proof.
  intros H. unfold f32_norm.
  pose proof (binary_normalize_correct 24 128 prec_gt_0_24 prec_lt_24 mode_NE m e s) as C. cbv zeta in C.
  destruct (Rlt_bool _ _) in C.
  - right. destruct C as (C1 & C2 & _). split; [exact C2|]. rewrite C1.
    apply abs_round_ge_generic; [apply (fexp_correct 24 128 prec_gt_0_24)|apply valid_rnd_round_mode|apply one_32|exact H].
  - left. exact (overflow_inf 24 128 prec_gt_0_24 prec_lt_24 _ _ C).
Qed.

Lemma f64_of_f32_large x : large x -> large (f64_of_f32 x).
Proof.
  intros [[s ->]|[F L]]; [left; exists s; reflexivity|].
  destruct x as [s|s| |s m e He]; cbn [f64_of_f32]; try discriminate.
  - exfalso. cbn [B2R] in L. rewrite Rabs_R0 in L. lra.
  - pose proof (binary_normalize_correct 53 1024 prec_gt_0_53 prec_lt_53 mode_NE (SpecFloat.cond_Zopp s (Zpos m)) e s) as C. cbv zeta in C.
    cbn [B2R] in L.
    destruct (Rlt_bool _ _) in C.
    + right. destruct C as (C1 & C2 & _). split; [exact C2|]. rewrite C1.
      apply abs_round_ge_generic; [apply (fexp_correct 53 1024 prec_gt_0_53)|apply valid_rnd_round_mode|apply one_64|exact L].
    + left. exact (overflow_inf 53 1024 prec_gt_0_53 prec_lt_53 _ _ C).
Qed.

Lemma large_not_zero (x : f64) : large x -> FloatEqual x f64_zero = false.
Proof.
  intros [[s ->]|[F L]]; [destruct s; reflexivity|].
  destruct (FloatEqual x f64_zero) eqn:E; [|reflexivity]. exfalso.
  apply FloatEqual_close in E; [|exact F|reflexivity]. cbn [f64_zero B2R] in E. rewrite Rminus_0_r in E.
  pose proof tiny_pos. lra.
Qed.

Lemma bool_int z : FloatEqual (f64_of_f32 (f32_of_int z)) f64_zero = (z =? 0).
Proof.
  destruct (Z.eqb_spec z 0) as [->|N]; [vm_compute; reflexivity|].
  apply large_not_zero, f64_of_f32_large, f32_norm_large.
  unfold F2R. cbn [Fnum Fexp bpow]. rewrite Rmult_1_r, <- abs_IZR. apply IZR_le. lia.
Qed.

Lemma bool_double (x : f64) : is_finite x = true ->
  (B2R x = 0%R -> FloatEqual (f64_of_f32 (f32_of_f64 x)) f64_zero = true) /\
  ((1 <= Rabs (B2R x))%R -> FloatEqual (f64_of_f32 (f32_of_f64 x)) f64_zero = false).
Proof.
  intros F. destruct x as [s|s| |s m e He]; try discriminate.
  - split; [intros _; destruct s; vm_compute; reflexivity|]. cbn [B2R]. rewrite Rabs_R0. lra.
  - split.
    + cbn [B2R]. intros E. apply eq_0_F2R in E. destruct s; discriminate.
    + intros L. apply large_not_zero, f64_of_f32_large, f32_norm_large. exact L.
Qed.

Lemma trunc_int (x : f64) z : is_finite x = true -> B2R x = IZR z -> Btrunc x = z.
Proof.
  intros F E. apply eq_IZR. rewrite (Btrunc_correct 53 1024 prec_lt_53). rewrite E.
  apply round_generic; [typeclasses eauto|].
  replace (IZR z) with (F2R (Float radix2 z 0)) by (unfold F2R; cbn; lra).
  apply generic_format_F2R. intros _. unfold cexp, FIX_exp. cbn. lia.
Qed.

Lemma f_int_of_int z : in_int z -> f_int (of_int z) = Ok z.
Proof.
  unfold in_int, INT_MIN, INT_MAX. intros H. destruct (of_int_exact z) as [F E]; [lia|].
  unfold f_int, cast_int. rewrite F, (trunc_int _ z F E). unfold INT_MIN, INT_MAX.
  replace (-2147483648 <=? z) with true by lia. replace (z <=? 2147483647) with true by lia. reflexivity.
Qed.

Lemma is_whole_of_int z : in_int z -> is_whole (of_int z) = true.
Proof.
  unfold in_int, INT_MIN, INT_MAX. intros H. destruct (of_int_exact z) as [F E]; [lia|].
  destruct (of_int z) as [s|s| |s m e He]; try discriminate; [reflexivity|]. cbn [is_whole].
  destruct (0 <=? e) eqn:L; [reflexivity|]. apply Z.leb_gt in L. cbn [orb].
  apply Z.eqb_eq. cbn [B2R] in E. unfold F2R in E. cbn [Fnum Fexp] in E.
  apply Z.mod_divide; [apply Z.pow_nonzero; lia|].
  assert (Q : (SpecFloat.cond_Zopp s (Zpos m)) = z * 2 ^ (- e)).
  { apply eq_IZR. rewrite mult_IZR. change 2 with (radix_val radix2) at 1. rewrite IZR_Zpower by lia.
    rewrite <- E, Rmult_assoc, <- bpow_plus. replace (e + - e) with 0 by lia. cbn [bpow]. lra. }
  destruct s; cbn [SpecFloat.cond_Zopp] in Q; [exists (- z)|exists z]; lia.
Qed.

(* ---------- dates ---------- *)

Lemma firstn_split3 (d : bytes) : (3 <= length d)%nat -> exists a b, d = a ++ b /\ length b = 3%nat /\ a = firstn (length d - 3) d.
Proof.
  intros H. exists (firstn (length d - 3) d), (skipn (length d - 3) d). split; [symmetry; apply firstn_skipn|].
  split; [rewrite skipn_length; lia|reflexivity].
Qed.

Lemma value_head (a b : bytes) : Forall (fun c => isdigit c = true) (a ++ b) -> length b = 3%nat ->
  value_of 0 (a ++ b) / 1000 = value_of 0 a.
Proof.
  intros HF HL. apply Forall_app in HF. destruct HF as [Ha Hb]. rewrite value_of_app.
  assert (P : 0 <= value_of 0 a) by (pose proof (value_of_bound a 0 Ha ltac:(lia)); lia).
  pose proof (value_of_bound b (value_of 0 a) Hb P) as B. rewrite HL in B. change (10 ^ Z.of_nat 3) with 1000 in B.
  symmetry. apply Z.div_unique with (value_of (value_of 0 a) b - 1000 * value_of 0 a); lia.
Qed.

Lemma digits_size (d : bytes) z : d <> [] -> Forall (fun c => isdigit c = true) d -> value_of 0 d = z ->
  (hd_error d = Some "0"%char -> d = ["0"%char]) -> 0 <= z < 10 ^ Z.of_nat (length d) /\ ((1 < length d)%nat -> 10 ^ Z.of_nat (length d - 1) <= z).
Proof.
  intros N HF HV HL. pose proof (value_of_bound d 0 HF ltac:(lia)) as B. split; [lia|]. intros L.
  destruct d as [|c t]; [congruence|]. cbn [length] in *. replace (S (length t) - 1)%nat with (length t) by lia.
  cbn [value_of] in HV. inversion HF as [|? ? Hc Ht]; subst. apply isdigit_code in Hc.
  assert (code c <> 48).
  { intros E. assert (c = "0"%char) by (apply code_inj; rewrite E; reflexivity). subst c. specialize (HL eq_refl).
    injection HL as ->. cbn in L. lia. }
  pose proof (value_of_bound t (0 * 10 + (code c - 48)) Ht ltac:(lia)) as B2.
  assert (0 < 10 ^ Z.of_nat (length t)) by (apply Z.pow_pos_nonneg; lia). nia.
Qed.

Lemma atoi_canonical s z : canonical s z -> in_long z -> atoi s = wrap32 z.
Proof. intros. unfold atoi. rewrite (strtol_canonical s z); auto. Qed.

Lemma date_text ms : in_long ms ->
  atoi (substr0 (itoa ms) (Z.of_nat (length (itoa ms)) - 3)) =
  if (-10 <? ms) && (ms <? 100) then ms else wrap32 (Z.quot ms 1000).
Proof.
  intros HL. pose proof (itoa_canonical ms) as C. set (s := itoa ms) in *. clearbody s.
  assert (W : forall z, -10 < z < 100 -> canonical s z -> atoi s = z).
  { intros z Hz Hc. rewrite (atoi_canonical _ z) by (auto; unfold in_long, LONG_MIN, LONG_MAX; lia). apply wrap32_id. unfold in_int, INT_MIN, INT_MAX. lia. }
  destruct C as [(d & -> & Hz & Hn & HF & Hv & Hl)|(d & -> & Hz & Hn & HF & Hv & Hl)].
  - destruct (digits_size d ms Hn HF Hv Hl) as [B1 B2].
    replace (-10 <? ms) with true by lia. cbn [andb].
    destruct (ms <? 100) eqn:E.
    + apply Z.ltb_lt in E. assert (S : (length d <= 2)%nat).
      { destruct (le_lt_dec (length d) 2); auto. exfalso. assert (10 ^ 2 <= 10 ^ Z.of_nat (length d - 1)) by (apply Z.pow_le_mono_r; lia). specialize (B2 ltac:(lia)). lia. }
      unfold substr0. replace (Z.of_nat (length d) - 3 <? 0) with true by lia. apply (W ms); [lia|left; exists d; auto 6].
    + apply Z.ltb_ge in E. assert (S : (3 <= length d)%nat).
      { destruct (le_lt_dec 3 (length d)); auto. exfalso. assert (10 ^ Z.of_nat (length d) <= 10 ^ 2) by (apply Z.pow_le_mono_r; lia). lia. }
      unfold substr0. replace (Z.of_nat (length d) - 3 <? 0) with false by lia. replace (Z.to_nat (Z.of_nat (length d) - 3)) with (length d - 3)%nat by lia.
      destruct (firstn_split3 d S) as (a & b & Ed & Lb & Ea). rewrite <- Ea. rewrite Z.quot_div_nonneg by lia.
      rewrite <- Hv, Ed. rewrite value_head by (auto; rewrite <- Ed; auto).
      destruct a as [|c t].
      * reflexivity.
      * apply atoi_canonical.
        -- left. exists (c :: t). rewrite Ed in HF. apply Forall_app in HF. destruct HF as [HFa _].
           split; [reflexivity|]. split; [pose proof (value_of_bound (c :: t) 0 HFa ltac:(lia)); lia|]. split; [discriminate|]. split; [auto|]. split; [reflexivity|].
           intros Hh. cbn in Hh. rewrite Ed in Hl. specialize (Hl Hh). destruct t; destruct b; cbn in *; try discriminate.
        -- rewrite Ed in HF. pose proof HF as HF'. apply Forall_app in HF'. destruct HF' as [HFa _].
           pose proof (value_of_bound (c :: t) 0 HFa ltac:(lia)). rewrite <- (value_head (c :: t) b) by auto.
           rewrite <- Ed, Hv. unfold in_long, LONG_MIN, LONG_MAX in *.
           pose proof (Z.div_le_upper_bound ms 1000 ms ltac:(lia) ltac:(lia)). pose proof (Z.div_pos ms 1000 Hz ltac:(lia)). lia.
  - assert (Hl' : hd_error d = Some "0"%char -> d = ["0"%char]) by congruence.
    destruct (digits_size d (- ms) Hn HF Hv Hl') as [B1 B2].
    replace (ms <? 100) with true by lia. rewrite andb_true_r. cbn [length].
    destruct (-10 <? ms) eqn:E.
    + apply Z.ltb_lt in E. assert (S : (length d <= 1)%nat).
      { destruct (le_lt_dec (length d) 1); auto. exfalso. assert (10 ^ 1 <= 10 ^ Z.of_nat (length d - 1)) by (apply Z.pow_le_mono_r; lia). specialize (B2 ltac:(lia)). lia. }
      unfold substr0. replace (Z.of_nat (Datatypes.S (length d)) - 3 <? 0) with true by lia. apply (W ms); [lia|right; exists d; auto 6].
    + apply Z.ltb_ge in E. assert (S : (2 <= length d)%nat).
      { destruct (le_lt_dec 2 (length d)); auto. exfalso. assert (10 ^ Z.of_nat (length d) <= 10 ^ 1) by (apply Z.pow_le_mono_r; lia). lia. }
      unfold substr0. replace (Z.of_nat (Datatypes.S (length d)) - 3 <? 0) with false by lia.
      replace (Z.to_nat (Z.of_nat (Datatypes.S (length d)) - 3)) with (length d - 2)%nat by lia.
      rewrite <- (Z.opp_involutive ms) at 1. rewrite Z.quot_opp_l, Z.quot_div_nonneg by lia.
      destruct (Nat.eq_dec (length d) 2) as [L2|L2].
      * rewrite L2. cbn [Nat.sub firstn]. rewrite L2 in B1. change (10 ^ Z.of_nat 2) with 100 in B1. rewrite Z.div_small by lia. reflexivity.
      * destruct (firstn_split3 d ltac:(lia)) as (a & b & Ed & Lb & Ea).
        replace (length d - 2)%nat with (Datatypes.S (length d - 3)) by lia. cbn [firstn]. rewrite <- Ea.
        rewrite <- Hv, Ed. rewrite value_head by (auto; rewrite <- Ed; auto).
        destruct a as [|c t]; [reflexivity|].
        assert (HF' : Forall (fun c => isdigit c = true) (c :: t)) by (rewrite Ed in HF; apply Forall_app in HF; tauto).
        assert (P : 0 < value_of 0 (c :: t)).
        { rewrite <- (value_head (c :: t) b) by (auto; rewrite <- Ed; auto). rewrite <- Ed, Hv.
          assert (L4 : (4 <= length d)%nat) by (rewrite Ed, app_length, Lb; cbn; lia).
          assert (10 ^ 3 <= 10 ^ Z.of_nat (length d - 1)) by (apply Z.pow_le_mono_r; lia). specialize (B2 ltac:(lia)). apply Z.div_str_pos. lia. }
        apply atoi_canonical.
        -- right. exists (c :: t). split; [reflexivity|]. split; [lia|]. split; [discriminate|]. split; [auto|]. split; [lia|].
           rewrite Ed in Hl. exact Hl.
        -- rewrite <- (value_head (c :: t) b) in * by (auto; rewrite <- Ed; auto).
           rewrite <- Ed, Hv in *. unfold in_long, LONG_MIN, LONG_MAX in *.
           pose proof (Z.div_le_upper_bound (- ms) 1000 (- ms) ltac:(lia) ltac:(lia)). lia.
Qed.

(* ---------- options ---------- *)

Lemma find_app d d' k : bson_find (d ++ d') k = match bson_find d k with Some v => Some v | None => bson_find d' k end.
Proof. induction d as [|[a x] d IH]; cbn; auto. destruct (beqb a k); auto. Qed.

(** The text survives being stored and read back. *)
Definition keeps (strtod : bytes -> f64 * nat) (v : bytes) : Prop :=
  v = [] \/ snd (strtod v) <> length v \/ exists z, in_int z /\ v = itoa z.

Lemma match_empty v : StringMatch [] v = true <-> v = [].
Proof. unfold StringMatch. cbn. rewrite beqb_eq. destruct v; cbn; split; congruence. Qed.

Lemma append_one strtod show prefix doc k v :
  (forall z, in_int z -> strtod (itoa z) = (of_int z, length (itoa z))) ->
  keeps strtod v ->
  exists x, append_option strtod prefix doc (k, v) = Ok (doc ++ [(prefix ++ k, x)]) /\ GetStringFromBsonIterator show x = v.
Proof.
  intros HS HK. unfold append_option. cbn [fst snd].
  assert (T : v = [] \/ snd (strtod v) <> length v ->
    exists x, (let (d, is_dbl) := IsDouble f64 strtod v in
      if StringMatch [] v || negb is_dbl then Ok (doc ++ [(prefix ++ k, BUtf8 v)])
      else if is_whole d then obind (f_int d) (fun z => Ok (doc ++ [(prefix ++ k, BInt32 z)]))
      else Ok (doc ++ [(prefix ++ k, BDouble d)])) = Ok (doc ++ [(prefix ++ k, x)]) /\ GetStringFromBsonIterator show x = v).
  { intros H. exists (BUtf8 v). split; [|reflexivity]. unfold IsDouble. destruct (strtod v) as [d n] eqn:E.
    replace (StringMatch [] v || negb (Nat.eqb n (length v))) with true; [reflexivity|]. symmetry. apply orb_true_iff.
    destruct H as [->|H]; [left; reflexivity|right]. cbn [snd] in H. apply negb_true_iff, Nat.eqb_neq. exact H. }
  destruct HK as [H|[H|(z & Hz & ->)]]; auto.
  exists (BInt32 z). split; [|reflexivity]. unfold IsDouble. rewrite (HS z Hz), Nat.eqb_refl. cbn [negb]. rewrite orb_false_r.
  destruct (StringMatch [] (itoa z)) eqn:E.
  - exfalso. apply match_empty in E. destruct (itoa_canonical z) as [(d & E2 & _ & N & _)|(d & E2 & _)]; congruence.
  - rewrite (is_whole_of_int z Hz), (f_int_of_int z Hz). reflexivity.
Qed.

Lemma append_all strtod show prefix : 
  (forall z, in_int z -> strtod (itoa z) = (of_int z, length (itoa z))) ->
  forall (opts : list (bytes * bytes)) doc, Forall (fun kv => keeps strtod (snd kv)) opts -> NoDup (map fst opts) ->
  (forall kv, In kv opts -> bson_find doc (prefix ++ fst kv) = None) ->
  exists doc', AppendStringOptionsToBson strtod doc opts prefix = Ok doc' /\
    (forall k v, bson_find doc k = Some v -> bson_find doc' k = Some v) /\
    (forall (k v : bytes), In (k, v) opts -> GetStringFromBson show doc' (prefix ++ k) = v).
Proof.
  intros HS. unfold AppendStringOptionsToBson. induction opts as [|[k v] opts IH]; intros doc HF HN HD.
  - exists doc. cbn. split; [reflexivity|]. split; [auto|]. intros ? ? [].
  - inversion HF as [|? ? HK HF']; subst. cbn [snd] in HK. cbn [map fst] in HN. inversion HN as [|? ? NI HN']; subst.
    destruct (append_one strtod show prefix doc k v HS HK) as (x & E & G). cbn [ofold]. rewrite E. cbn [obind].
    destruct (IH (doc ++ [(prefix ++ k, x)])) as (doc' & E' & P & Q); auto.
    + intros [k2 v2] HI. cbn [fst]. assert (H0 : bson_find doc (prefix ++ k2) = None) by (apply (HD (k2, v2)); right; exact HI). rewrite find_app, H0. cbn [bson_find].
      destruct (beqb (prefix ++ k) (prefix ++ k2)) eqn:B; [|reflexivity]. apply beqb_eq, app_inv_head in B. subst k2.
      exfalso. apply NI. change k with (fst (k, v2)). apply in_map. exact HI.
    + exists doc'. split; [exact E'|]. split.
      * intros k0 v0 H0. apply P. rewrite find_app, H0. reflexivity.
      * intros k0 v0 [[= <- <-]|HI]; [|auto]. unfold GetStringFromBson. rewrite (P (prefix ++ k) x); [exact G|].
        specialize (HD (k, v) (or_introl eq_refl)). cbn [fst] in HD. rewrite find_app, HD. cbn [bson_find]. rewrite beqb_refl. reflexivity.
Qed.

(* ---------- collections ---------- *)

Lemma known_In l n : known l n = true <-> In n l.
Proof.
  unfold known. rewrite existsb_exists. split.
  - intros (x & H & E). apply beqb_eq in E. subst. exact H.
  - intros H. exists n. split; [exact H|apply beqb_refl].
Qed.

Lemma add_new_In l n x : In x (add_new l n) <-> In x l \/ x = n.
Proof.
  unfold add_new. destruct (known l n) eqn:E.
  - apply known_In in E. split; [auto|]. intros [H| ->]; auto.
  - rewrite in_app_iff. cbn. intuition congruence.
Qed.

Lemma dedup_In names : forall l x, In x (fold_left add_new names l) <-> In x l \/ In x names.
Proof.
  induction names as [|n names IH]; intros l x; cbn; [tauto|]. rewrite IH, add_new_In. intuition congruence.
Qed.

Lemma split_nonempty s d : s <> [] -> SplitString_d s d <> [].
Proof. intros H. destruct (SplitString_d_ok s d) as [_ [[E _]|[(_ & N & _)|(_ & N & _)]]]; [congruence|exact N|exact N]. Qed.

Lemma split_one (s : bytes) d : ~ In d s -> s <> [] -> SplitString_d s d = [s].
Proof. intros H N. apply (split_join d [s]); [constructor; auto|discriminate|exact N]. Qed.
Lemma split_two (p q : bytes) d : ~ In d p -> ~ In d q -> q <> [] -> SplitString_d (p ++ d :: q) d = [p; q].
Proof. intros H1 H2 N. apply (split_join d [p; q]); [constructor; auto|discriminate|exact N]. Qed.

(** The other collection of a bucket. *)
Definition other_half (q : bytes) : option bytes :=
  if beqb q (str "files") then Some (str ".chunks") else if beqb q (str "chunks") then Some (str ".files") else None.

Lemma real_step_spec coll acc name : name <> [] ->
  exists acc', real_step coll acc name = Ok acc' /\
    (forall x, In x acc' <-> In x acc \/
       exists front q h, SplitString_d name "." = front ++ [q] /\ other_half q = Some h /\ x = concat front /\ In (concat front ++ h) coll).
Proof.
  intros HN. unfold real_step. pose proof (split_nonempty name "." HN) as NE.
  destruct (exists_last NE) as (front & q & E). rewrite E, rev_app_distr. cbn [rev app]. rewrite rev_involutive.
  assert (U : forall f' q', front ++ [q] = f' ++ [q'] -> f' = front /\ q' = q).
  { intros f' q' H. apply app_inj_tail in H. intuition congruence. }
  destruct (beqb q (str "files") || beqb q (str "chunks")) eqn:B.
  - assert (HH : exists h, other_half q = Some h /\ h = if beqb q (str "files") then str ".chunks" else str ".files").
    { unfold other_half. destruct (beqb q (str "files")); [eauto|]. cbn [orb] in B. rewrite B. eauto. }
    destruct HH as (h & Hh & Eh).
    match goal with |- context [known coll (?x ++ ?y)] => assert (Y : x ++ y = concat front ++ h) by (rewrite Eh; reflexivity); rewrite Y; clear Y end.
    destruct (known coll (concat front ++ h)) eqn:K.
    + exists (add_new acc (concat front)). split; [reflexivity|]. intros x. rewrite add_new_In. split.
      * intros [H| ->]; [auto|right]. exists front, q, h. apply known_In in K. auto.
      * intros [H|(f' & q' & h' & E' & _ & -> & _)]; [auto|]. destruct (U _ _ E') as [-> _]. auto.
    + exists acc. split; [reflexivity|]. intros x. split; [auto|]. intros [H|(f' & q' & h' & E' & Hh' & -> & HI)]; [exact H|].
      exfalso. destruct (U _ _ E') as [-> ->]. assert (h' = h) by congruence. subst h'. apply known_In in HI. congruence.
  - exists acc. split; [reflexivity|]. intros x. split; [auto|]. intros [H|(f' & q' & h' & E' & Hh' & _)]; [exact H|].
    exfalso. destruct (U _ _ E') as [-> ->]. unfold other_half in Hh'. apply orb_false_iff in B. destruct B as [B1 B2]. rewrite B1, B2 in Hh'. discriminate.
Qed.

Lemma real_all coll : forall names acc, (forall n, In n names -> n <> []) ->
  exists acc', ofold (real_step coll) names acc = Ok acc' /\
    (forall x, In x acc' <-> In x acc \/
       exists name front q h, In name names /\ SplitString_d name "." = front ++ [q] /\ other_half q = Some h /\ x = concat front /\ In (concat front ++ h) coll).
Proof.
  induction names as [|n names IH]; intros acc HN.
  - exists acc. split; [reflexivity|]. intros x. split; [auto|]. intros [H|(? & ? & ? & ? & [] & _)]; exact H.
  - destruct (real_step_spec coll acc n (HN n (or_introl eq_refl))) as (a1 & E1 & C1).
    destruct (IH a1) as (a2 & E2 & C2); [intros; apply HN; right; auto|].
    exists a2. cbn [ofold]. rewrite E1. cbn [obind]. split; [exact E2|]. intros x. rewrite C2, C1. split.
    + intros [[H|(f & q & h & H)]|(m & f & q & h & HI & H)]; [auto| |].
      * right. exists n, f, q, h. split; [left; reflexivity|exact H].
      * right. exists m, f, q, h. split; [right; exact HI|exact H].
    + intros [H|(m & f & q & h & [<-|HI] & H)]; [auto| |].
      * left. right. exists f, q, h. exact H.
      * right. exists m, f, q, h. split; [exact HI|exact H].
Qed.

Lemma collections names : (forall n, In n names -> n <> []) ->
  exists l, GetCollectionNames names = Ok l /\
    (forall x, In x l <-> In x names \/
       exists name front q h, In name names /\ SplitString_d name "." = front ++ [q] /\ other_half q = Some h /\ x = concat front /\ In (concat front ++ h) names).
Proof.
  intros HN. unfold GetCollectionNames. set (coll := fold_left add_new names []).
  assert (HC : forall x, In x coll <-> In x names) by (intros x; unfold coll; rewrite dedup_In; cbn; tauto).
  destruct (real_all coll coll []) as (r & E & C); [intros n H; apply HN, HC, H|].
  exists (coll ++ r). rewrite E. cbn [obind]. split; [reflexivity|]. intros x. rewrite in_app_iff, C, HC. cbn [In]. split.
  - intros [H|[[]|(m & f & q & h & HI & H1 & H2 & H3 & H4)]]; [auto|]. right. exists m, f, q, h. rewrite <- !HC. auto.
  - intros [H|(m & f & q & h & HI & H1 & H2 & H3 & H4)]; [auto|]. right. right. exists m, f, q, h. rewrite !HC. auto.
Qed.
