(** Metadata written and read. *)
From Coq Require Import ZArith Reals Ascii String List Bool Lia Lra ZifyBool.
From Flocq Require Import Core BinarySingleNaN.
From Verif Require Import Base ListLib StrModel StrProofs MapModel MapProofs RasterModel BasicModel FloatModel FloatProofs CoordFloatModel TypeModel MongoModel MongoProofs CopyModel NumModel NumProofs AscModel CellModel CellSpec CellProofs CellProofs2 GdalModel GridfsModel GridfsSpec GridfsProofs.
Import ListNotations.
Open Scope Z_scope.
Open Scope outcome_scope.

Lemma strtod_int z : in_int z -> strtod (itoa z) = (of_int z, length (itoa z)).
Proof.
  intros I. assert (A : Z.abs z <= 2 ^ 53) by (unfold in_int, INT_MIN, INT_MAX in I; lia).
  pose proof (IsDouble_itoa z A) as E. unfold IsDouble in E. destruct (strtod (itoa z)) as [x n]. injection E as -> E.
  apply Nat.eqb_eq in E. subst n. reflexivity.
Qed.

(** ** Whole numbers *)
Lemma is_whole_iff (x : f64) : is_finite x = true -> (is_whole x = true <-> exists z, B2R x = IZR z).
Proof.
  intros F. destruct x as [s|s| |s m e He]; try discriminate; cbn [is_whole B2R].
  - split; [intros _; exists 0; reflexivity|reflexivity].
  - destruct (Z.leb_spec 0 e) as [L|L]; cbn [orb].
    + split; [intros _|reflexivity]. exists (SpecFloat.cond_Zopp s (Zpos m) * 2 ^ e). unfold F2R. cbn [Fnum Fexp].
      rewrite mult_IZR. change 2 with (radix_val radix2) at 1. rewrite IZR_Zpower by lia. reflexivity.
    + rewrite Z.eqb_eq, Z.mod_divide by (apply Z.pow_nonzero; lia).
      assert (BE : forall k, F2R (Float radix2 (k * 2 ^ (- e)) e) = IZR k).
      { intros k. unfold F2R. cbn [Fnum Fexp]. rewrite mult_IZR. change 2 with (radix_val radix2) at 1. rewrite IZR_Zpower by lia.
        rewrite Rmult_assoc, <- bpow_plus. replace (- e + e) with 0 by lia. cbn [bpow]. lra. }
      split.
      * intros [k E]. exists (if s then - k else k). rewrite <- BE. f_equal. f_equal. destruct s; cbn [SpecFloat.cond_Zopp]; lia.
      * intros [k E]. assert (Q : SpecFloat.cond_Zopp s (Zpos m) = k * 2 ^ (- e)).
        { apply eq_IZR. rewrite mult_IZR. change 2 with (radix_val radix2) at 1. rewrite IZR_Zpower by lia.
          rewrite <- E. unfold F2R. cbn [Fnum Fexp]. rewrite Rmult_assoc, <- bpow_plus. replace (e + - e) with 0 by lia. cbn [bpow]. lra. }
        destruct s; cbn [SpecFloat.cond_Zopp] in Q; [exists (- k)|exists k]; lia.
Qed.

(** ** Header entries *)
Definition hval (kv : bytes * f64) : bson_value := match header_field kv with Ok f => snd f | _ => BOther end.

Lemma header_field_ok k x : fits_meta k x ->
  exists w, header_field (k, x) = Ok (k, w) /\ hval (k, x) = w /\
    exists y, GetNumeric_dbl strtod w = Some y /\ same_number x y /\ (k = str "NODATA_VALUE" -> y = x).
Proof.
  intros H. unfold hval, header_field. cbn [fst snd]. destruct (StringMatch K_NODATA k) eqn:M; cbn [negb andb].
  - exists (BDouble x). repeat split. exists x. repeat split. left. reflexivity.
  - destruct H as [->|[F W]]; [vm_compute in M; discriminate|]. destruct (is_whole x) eqn:E.
    + apply (is_whole_iff x F) in E. destruct E as [z E]. specialize (W (conj F (ex_intro _ z E))). rewrite E in W.
      assert (I : in_int z) by (unfold in_int; split; apply le_IZR; apply W). unfold f_int, cast_int. rewrite F, (trunc_int x z F E).
      replace ((INT_MIN <=? z) && (z <=? INT_MAX)) with true by (unfold in_int in I; lia). cbn [obind].
      exists (BInt32 z). repeat split. exists (of_int z). split; [reflexivity|].
      destruct (of_int_exact z) as [FZ EZ]; [unfold in_int, INT_MIN, INT_MAX in I; lia|]. split; [right; rewrite EZ; auto|].
      intros ->. vm_compute in M. discriminate.
    + exists (BDouble x). repeat split. exists x. repeat split. left. reflexivity.
Qed.

Lemma header_fields_ok h : (forall k x, In (k, x) h -> fits_meta k x) -> header_fields h = Ok (map (fun kv => (fst kv, hval kv)) h).
Proof.
  intros H. unfold header_fields.
  assert (Q : forall l acc, (forall k x, In (k, x) l -> fits_meta k x) ->
    ofold (fun acc kv => let* f := header_field kv in Ok (acc ++ [f])) l acc = Ok (acc ++ map (fun kv => (fst kv, hval kv)) l)).
  { induction l as [|[k x] l IH]; intros acc A; cbn [ofold map]; [rewrite app_nil_r; reflexivity|].
    destruct (header_field_ok k x (A k x (or_introl eq_refl))) as (w & -> & <- & _). cbn [obind]. rewrite IH by (intros; apply A; right; assumption).
    rewrite <- app_assoc. reflexivity. }
  apply Q. exact H.
Qed.

(** ** Options *)
Definition optv (v : bytes) : bson_value := match append_option strtod [] [] ([], v) with Ok [(_, x)] => x | _ => BOther end.

Lemma optv_cases v : plain_option v -> optv v = BUtf8 v \/ exists z, in_int z /\ v = itoa z /\ optv v = BInt32 z.
Proof.
  intros P. unfold optv, append_option. cbn [fst snd app]. unfold IsDouble.
  assert (C : v = [] \/ snd (strtod v) <> length v \/ exists z, in_int z /\ v = itoa z) by exact P.
  assert (T : v = [] \/ snd (strtod v) <> length v -> StringMatch [] v || negb (Nat.eqb (snd (strtod v)) (length v)) = true).
  { intros H. apply orb_true_iff. destruct H as [->|H]; [left; reflexivity|right]. apply negb_true_iff, Nat.eqb_neq. exact H. }
  destruct C as [H|[H|(z & Hz & ->)]].
  1, 2: left; destruct (strtod v) as [d n]; cbn [snd] in *; rewrite T by auto; reflexivity.
  right.
  exists z. split; [exact Hz|]. split; [reflexivity|]. rewrite (strtod_int z Hz), Nat.eqb_refl. cbn [negb]. rewrite orb_false_r.
  destruct (StringMatch [] (itoa z)) eqn:E.
  - exfalso. apply match_empty in E. destruct (itoa_canonical z) as [(d & E2 & _ & N & _)|(d & E2 & _)]; congruence.
  - rewrite (is_whole_of_int z Hz), (f_int_of_int z Hz). reflexivity.
Qed.

Lemma optv_text v : plain_option v -> GetStringFromBsonIterator g6 (optv v) = v.
Proof. intros P. destruct (optv_cases v P) as [->|(z & _ & -> & ->)]; reflexivity. Qed.

Lemma append_plain doc k v : plain_option v -> append_option strtod [] doc (k, v) = Ok (doc ++ [(k, optv v)]).
Proof.
  intros P. destruct (append_one strtod g6 [] doc k v strtod_int P) as (x & E & _). rewrite E. cbn [app].
  assert (V : optv v = x); [|rewrite V; reflexivity]. unfold optv, append_option in *. cbn [fst snd app] in *.
  destruct (IsDouble f64 strtod v) as [d b]. destruct (StringMatch [] v || negb b).
  - injection E as E. apply app_inv_head in E. injection E as <-. reflexivity.
  - destruct (is_whole d).
    + destruct (f_int d); cbn [obind] in *; try discriminate. injection E as E. apply app_inv_head in E. injection E as <-. reflexivity.
    + injection E as E. apply app_inv_head in E. injection E as <-. reflexivity.
Qed.

Lemma options_fields opts : (forall k v, In (k, v) opts -> plain_option v) -> forall doc,
  AppendStringOptionsToBson strtod doc opts [] = Ok (doc ++ map (fun kv => (fst kv, optv (snd kv))) opts).
Proof.
  unfold AppendStringOptionsToBson. induction opts as [|[k v] opts IH]; intros H doc; cbn [ofold map]; [rewrite app_nil_r; reflexivity|].
  rewrite (append_plain doc k v (H k v (or_introl eq_refl))). cbn [obind]. rewrite IH by (intros k' v' I; apply (H k' v'); right; exact I).
  rewrite <- app_assoc. reflexivity.
Qed.

(** Options are matched exactly when they are equal. *)
Lemma of_int_inj y z : in_int y -> in_int z -> Beqb (of_int y) (of_int z) = (y =? z).
Proof.
  unfold in_int, INT_MIN, INT_MAX. intros HY HZ. destruct (of_int_exact y) as [FY EY]; [lia|]. destruct (of_int_exact z) as [FZ EZ]; [lia|].
  rewrite Beqb_correct by assumption. rewrite EY, EZ. destruct (Z.eqb_spec y z) as [->|N]; [apply Req_bool_true; reflexivity|].
  apply Req_bool_false. intros E. apply eq_IZR in E. contradiction.
Qed.

Lemma optv_same v w : plain_option v -> plain_option w -> bson_same (optv v) (optv w) = beqb v w.
Proof.
  intros P Q. destruct (optv_cases v P) as [EV|(y & Hy & -> & EV)]; destruct (optv_cases w Q) as [EW|(z & Hz & -> & EW)]; rewrite EV, EW; cbn [bson_same bson_num].
  - reflexivity.
  - symmetry. apply beqb_false. intros ->. congruence.
  - symmetry. apply beqb_false. intros <-. congruence.
  - transitivity (y =? z).
    + rewrite <- (of_int_inj y z Hy Hz). unfold num_same. destruct (of_int_exact y) as [FY _]; [unfold in_int, INT_MIN, INT_MAX in Hy; lia|].
      destruct (of_int y); try reflexivity. discriminate.
    + destruct (Z.eqb_spec y z) as [->|N]; [symmetry; apply MapProofs.beqb_refl|]. symmetry. apply beqb_false. intros E.
      assert (A := strtod_int y Hy). rewrite E, (strtod_int z Hz) in A. apply N. injection A as A.
      assert (B := f_int_of_int y Hy). rewrite <- A, (f_int_of_int z Hz) in B. congruence.
Qed.

(** ** Looking things up *)
Lemma find_lookup (d : bson) k : bson_find d k = lookup d k.
Proof. induction d as [|[a x] d IH]; cbn; auto. Qed.

Lemma lookup_map {A B} (g : bytes * A -> B) (m : smap A) k :
  lookup (map (fun kv => (fst kv, g kv)) m) k = match lookup m k with Some v => Some (g (k, v)) | None => None end.
Proof.
  induction m as [|[a x] m IH]; cbn [map lookup fst]; auto. destruct (beqb a k) eqn:E; auto. apply beqb_true in E. subst. reflexivity.
Qed.

Lemma lookup_In {A} (m : smap A) k v : NoDup (map fst m) -> (lookup m k = Some v <-> In (k, v) m).
Proof.
  induction m as [|[a x] m IH]; cbn [map lookup fst In]; intros N; [split; [discriminate|tauto]|]. inversion N as [|? ? NI N']; subst.
  destruct (beqb a k) eqn:E.
  - apply beqb_true in E. subst a. split; [intros [= ->]; auto|]. intros [[= ->]|I]; [reflexivity|]. exfalso. apply NI. change k with (fst (k, v)). apply in_map. exact I.
  - rewrite (IH N'). apply beqb_false in E. split; [auto|]. intros [[= -> ->]|I]; [contradiction|exact I].
Qed.

Lemma lookup_found {A} (m : smap A) k v : lookup m k = Some v -> In (k, v) m.
Proof.
  induction m as [|[a x] m IH]; cbn [lookup In]; [discriminate|]. destruct (beqb a k) eqn:E; [|auto]. apply beqb_true in E. subst a. intros [= ->]. auto.
Qed.

(** ** Reading the metadata *)
Lemma read_meta_lookup m : NoDup (map fst m) -> forall h s,
  (forall k, lookup (fst (read_meta m h s)) k =
     match lookup h k with
     | None => None
     | Some x => Some (match lookup m k with Some v => match GetNumeric_dbl strtod v with Some y => y | None => x end | None => x end)
     end) /\
  (forall k, lookup (snd (read_meta m h s)) k =
     match lookup h k with
     | Some _ => lookup s k
     | None => match lookup m k with Some v => Some (GetStringFromBsonIterator g6 v) | None => lookup s k end
     end).
Proof.
  unfold read_meta. induction m as [|[a w] m IH]; cbn [map fst fold_left lookup]; intros N h s.
  - split; intros k; cbn [fst snd]; destruct (lookup h k); reflexivity.
  - inversion N as [|? ? NI N']; subst. apply lookup_none in NI.
    unfold read_field at 2 4. cbn [fst snd]. destruct (lookup h a) as [x0|] eqn:LA.
    + destruct (IH N' (match GetNumeric_dbl strtod w with Some x => assign h a x | None => h end) s) as [H1 H2].
      split; intros k; rewrite ?H1, ?H2; destruct (beqb a k) eqn:E.
      * apply beqb_true in E. subst k. rewrite NI, LA. destruct (GetNumeric_dbl strtod w); [|rewrite LA; reflexivity].
        rewrite lookup_assign, MapProofs.beqb_refl, LA. reflexivity.
      * destruct (GetNumeric_dbl strtod w); [|reflexivity]. rewrite lookup_assign, E. reflexivity.
      * apply beqb_true in E. subst k. rewrite LA. destruct (GetNumeric_dbl strtod w); [|rewrite LA; reflexivity].
        rewrite lookup_assign, MapProofs.beqb_refl, LA. reflexivity.
      * destruct (GetNumeric_dbl strtod w); [|reflexivity]. rewrite lookup_assign, E. reflexivity.
    + destruct (IH N' h (UpdateMap s a (GetStringFromBsonIterator g6 w))) as [H1 H2].
      split; intros k; rewrite ?H1, ?H2; destruct (beqb a k) eqn:E; try reflexivity.
      * apply beqb_true in E. subst k. rewrite LA. reflexivity.
      * apply beqb_true in E. subst k. rewrite LA, NI, lookup_UpdateMap, MapProofs.beqb_refl. reflexivity.
      * rewrite lookup_UpdateMap, E. reflexivity.
Qed.
