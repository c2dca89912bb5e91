(** Lemmas about reading GeoTIFF rasters and about the geotransform. *)
From Coq Require Import ZArith Reals Ascii String List Bool Sorted Lia Lra ZifyBool ZifyNat Permutation.
From Flocq Require Import Core BinarySingleNaN.
From Verif Require Import Base ListLib StrModel StrSpec StrProofs FsModel MapModel MapProofs RasterModel RasterSpec BasicModel FloatModel FloatProofs
  CoordFloatModel CoordFloatProofs TypeModel MongoModel CopyModel AscModel AscSpec AscProofs AscProofs2 CellModel CellSpec CellProofs CellProofs2 GdalModel GdalSpec GdalProofs.
Import ListNotations.
Open Scope Z_scope.
Open Scope outcome_scope.

(** ** Cells *)
Lemma convert_all t g n p : (forall v, In v p -> cvt t v = Ok (g v)) -> Z.of_nat (length p) = n -> convert_array t n p = Ok (map g p).
Proof.
  intros H L. unfold convert_array.
  assert (Q : forall k, (k <= length p)%nat -> ofold (fun acc i => let* v := aget p i in let* w := cvt t v in Ok (acc ++ [w])) (zseq (Z.of_nat k)) [] = Ok (map g (firstn k p))).
  { induction k as [|k IH]; intros K; [reflexivity|]. replace (Z.of_nat (S k)) with (Z.of_nat k + 1) by lia. rewrite zseq_S, ofold_app, IH by lia. cbn [obind ofold].
    destruct (nth_error p k) as [v|] eqn:E; [|apply nth_error_None in E; lia]. rewrite (aget_nat p k v E). cbn [obind]. rewrite (H v) by (eapply nth_error_In; eassumption). cbn [obind]. f_equal.
    clear - E. revert p E. induction k as [|k IH]; intros [|a p] E; cbn in E |- *; try discriminate; [congruence|]. rewrite IH by assumption. reflexivity. }
  rewrite <- L, Q by lia. rewrite firstn_all. reflexivity.
Qed.

Lemma cvt_own t v : of_type t v -> cvt t v = Ok v.
Proof.
  destruct v as [z|x|x]; cbn [of_type].
  - intros [K F]. rewrite cvt_int, wrap_id by assumption. reflexivity.
  - intros ->. reflexivity.
  - intros ->. reflexivity.
Qed.
Lemma convert_own t n p : Forall (of_type t) p -> Z.of_nat (length p) = n -> convert_array t n p = Ok p.
Proof.
  intros F L. rewrite (convert_all t (fun v => v) n p); [rewrite map_id; reflexivity| |exact L]. intros v I. apply cvt_own. exact (proj1 (Forall_forall _ _) F v I).
Qed.

(** ** The header that is read *)
Definition read_x (g : geotrans) : f64 := fadd (gt0 g) (fmul half (gt1 g)).
Definition read_y (g : geotrans) (rows : Z) : f64 := fadd (gt3 g) (fmul (fsub (of_int rows) half) (gt5 g)).

Lemma read_eq g35 g37 s f minmax moved header values in_type srs : grid_size (f_rows f) (f_cols f) ->
  exists hd, (forall nd, header_read header (hd nd) (f_cols f) (f_rows f) (read_x (f_geo f)) (read_y (f_geo f) (f_rows f)) (gt1 (f_geo f)) nd) /\
  ReadRasterFileByGdal g35 g37 s (Some f) minmax moved header values in_type srs =
  let* out := read_cells g35 g37 s f minmax moved (f_rows f * f_cols f) in
  match out with
  | None => Ok (mkGread false header values in_type srs)
  | Some (vs, t) => Ok (mkGread true (hd (match f_nodata f with Some x => x | None => DefaultNoDataByType t end)) (Some vs) t (f_srs f))
  end.
Proof.
  intros G. destruct (size_facts _ _ G) as (_ & _ & _ & _ & I1 & I2). 
  exists (fun nd => UpdateMap (UpdateMap (UpdateMap (UpdateMap (UpdateMap (UpdateMap (UpdateMap (UpdateMap header K_NCOLS (of_int (f_cols f))) K_NROWS (of_int (f_rows f)))
    K_NODATA nd) K_CELLSIZE (gt1 (f_geo f))) K_XLL (read_x (f_geo f))) K_YLL (read_y (f_geo f) (f_rows f))) K_LAYERS (of_int 1)) K_CELLSNUM (of_int (f_rows f * f_cols f))).
  split; cycle 1.
  - unfold ReadRasterFileByGdal. rewrite I2. cbn [obind]. destruct (read_cells _ _ _ _ _ _ _) as [[[vs t]|]| |]; cbn [obind]; auto. rewrite I1. cbn [obind]. reflexivity.
  - cbv beta. intros nd. unfold header_read, header_shows. rewrite !lookup_UpdateMap.
    repeat match goal with |- context [beqb ?a ?b] => let v := eval vm_compute in (beqb a b) in change (beqb a b) with v end.
    cbv iota. split; [repeat (split; [reflexivity|]); reflexivity|]. split; [reflexivity|].
    split; [rewrite (Z.mul_comm (f_cols f)); reflexivity|].
    intros k K. rewrite !lookup_UpdateMap.
    assert (Q : forall a, In a header_keys -> beqb a k = false).
    { intros a A. apply beqb_false. intros ->. contradiction. }
    rewrite !Q; [reflexivity| | | | | | | |]; cbn [header_keys map In]; tauto.
Qed.

(** ** Exact arithmetic on multiples of a power of two *)
Definition grid (e m : Z) (x : f64) : Prop := is_finite x = true /\ B2R x = (IZR m * bpow radix2 e)%R.

Lemma grid_format e m : -1074 <= e <= 900 -> Z.abs m <= 2 ^ 53 -> fmt (IZR m * bpow radix2 e) /\ (Rabs (IZR m * bpow radix2 e) < bpow radix2 1024)%R.
Proof.
  intros E M. split.
  - destruct (Z.eq_dec (Z.abs m) (2 ^ 53)) as [Q|Q].
    + apply generic_format_FLT. exists (Float radix2 (Z.sgn m) (e + 53)); cbn [Fnum Fexp].
      * unfold F2R. cbn [Fnum Fexp]. rewrite bpow_plus. replace m with (Z.sgn m * 2 ^ 53) at 1 by (rewrite <- Q; lia). rewrite mult_IZR. change (bpow radix2 53) with (IZR (2 ^ 53)). ring.
      * change (radix2 ^ 53) with (2 ^ 53). lia. * lia.
    + apply generic_format_FLT. exists (Float radix2 m e); cbn [Fnum Fexp]; [reflexivity| |lia]. change (radix2 ^ 53) with (2 ^ 53). lia.
  - rewrite Rabs_mult, <- abs_IZR, (Rabs_pos_eq (bpow radix2 e)) by apply bpow_ge_0. apply Rle_lt_trans with (bpow radix2 53 * bpow radix2 e)%R.
    + apply Rmult_le_compat_r; [apply bpow_ge_0|]. change (bpow radix2 53) with (IZR (2 ^ 53)). apply IZR_le. exact M.
    + rewrite <- bpow_plus. apply bpow_lt. lia.
Qed.

Lemma exact_op e m (x : f64) v : -1074 <= e <= 900 -> Z.abs m <= 2 ^ 53 ->
  (if Rlt_bool (Rabs (rnd v)) (bpow radix2 1024) then B2R x = rnd v /\ is_finite x = true else True) -> v = (IZR m * bpow radix2 e)%R -> grid e m x.
Proof.
  intros E M C ->. destruct (grid_format e m E M) as [F B]. assert (RR : rnd (IZR m * bpow radix2 e) = (IZR m * bpow radix2 e)%R) by (apply (round_generic radix2 (FLT_exp (-1074) 53) ZnearestE _ F)). rewrite RR in C.
  rewrite Rlt_bool_true in C by exact B. destruct C as [C1 C2]. split; assumption.
Qed.

Lemma grid_add e a b x y : -1074 <= e <= 900 -> Z.abs (a + b) <= 2 ^ 53 -> grid e a x -> grid e b y -> grid e (a + b) (fadd x y).
Proof.
  intros E M [FX VX] [FY VY]. apply (exact_op e (a + b) (fadd x y) (B2R x + B2R y)); auto.
  - pose proof (Bplus_correct 53 1024 prec_gt_0_53 prec_lt_53 mode_NE x y FX FY) as C. change (round radix2 (SpecFloat.fexp 53 1024) (round_mode mode_NE)) with rnd in C.
    destruct (Rlt_bool _ _); [tauto|exact I].
  - rewrite VX, VY, plus_IZR. ring.
Qed.
Lemma grid_sub e a b x y : -1074 <= e <= 900 -> Z.abs (a - b) <= 2 ^ 53 -> grid e a x -> grid e b y -> grid e (a - b) (fsub x y).
Proof.
  intros E M [FX VX] [FY VY]. apply (exact_op e (a - b) (fsub x y) (B2R x - B2R y)); auto.
  - pose proof (Bminus_correct 53 1024 prec_gt_0_53 prec_lt_53 mode_NE x y FX FY) as C. change (round radix2 (SpecFloat.fexp 53 1024) (round_mode mode_NE)) with rnd in C.
    destruct (Rlt_bool _ _); [tauto|exact I].
  - rewrite VX, VY, minus_IZR. ring.
Qed.
Lemma grid_mul e a e1 b e2 c x y : -1074 <= e <= 900 -> Z.abs c <= 2 ^ 53 -> grid e1 a x -> grid e2 b y ->
  (IZR a * bpow radix2 e1 * (IZR b * bpow radix2 e2) = IZR c * bpow radix2 e)%R -> grid e c (fmul x y).
Proof.
  intros E M [FX VX] [FY VY] Q. apply (exact_op e c (fmul x y) (B2R x * B2R y)); auto.
  - pose proof (Bmult_correct 53 1024 prec_gt_0_53 prec_lt_53 mode_NE x y) as C. change (round radix2 (SpecFloat.fexp 53 1024) (round_mode mode_NE)) with rnd in C.
    destruct (Rlt_bool _ _); [|exact I]. destruct C as (C1 & C2 & _). rewrite FX, FY in C2. split; assumption.
  - rewrite VX, VY. exact Q.
Qed.
Lemma grid_opp e a x : grid e a x -> grid e (- a) (Bopp x).
Proof. intros [F V]. split; [rewrite is_finite_Bopp; exact F|]. rewrite B2R_Bopp, V, opp_IZR. ring. Qed.
Lemma grid_int z : Z.abs z <= 2 ^ 53 -> grid 0 z (of_int z).
Proof. intros H. destruct (of_int_exact z H) as [F V]. split; [exact F|]. rewrite V. cbn. ring. Qed.
Lemma grid_half : grid (-1) 1 half.
Proof. split; [vm_compute; reflexivity|]. rewrite <- (SF2R_B2SF 53 1024 half). assert (E : B2SF half = SpecFloat.S754_finite false 4503599627370496 (-53)) by (vm_compute; reflexivity). rewrite E. unfold SF2R, F2R. cbn [SpecFloat.cond_Zopp Fnum Fexp]. change 4503599627370496%positive with (2 ^ 52)%positive. change (IZR (Zpos (2 ^ 52))) with (bpow radix2 52). rewrite <- bpow_plus. change (52 + -53) with (-1). ring. Qed.
Lemma grid_refine e a x : grid e a x -> grid (e - 1) (2 * a) x.
Proof. intros [F V]. split; [exact F|]. rewrite V. unfold Z.sub. rewrite bpow_plus, mult_IZR. change (bpow radix2 (- (1))) with (/ 2)%R. field. Qed.

(** The reader undoes what the writer did to the lower left corner. *)
Section Geo.
Variables (x y cs : f64) (rows e a b c : Z).
Hypotheses (R : 0 < rows <= INT_MAX) (E : -1000 <= e <= 800)
  (X : grid e a x) (Y : grid e b y) (C : grid e (2 * c) cs).

Lemma half_cell : Z.abs c <= 2 ^ 53 -> grid e c (fmul half cs).
Proof.
  intros M. apply (grid_mul e 1 (-1) (2 * c) e c); auto using grid_half; [lia|]. rewrite mult_IZR. change (bpow radix2 (-1)) with (/ 2)%R. field.
Qed.
Lemma rows_half : grid (-1) (2 * rows - 1) (fsub (of_int rows) half).
Proof.
  unfold INT_MAX in R. apply grid_sub; [lia|lia| |apply grid_half]. apply (grid_refine 0). apply grid_int. lia.
Qed.
Lemma height cs' c' : Z.abs ((2 * rows - 1) * c') <= 2 ^ 53 -> grid e (2 * c') cs' -> grid e ((2 * rows - 1) * c') (fmul (fsub (of_int rows) half) cs').
Proof.
  intros M G. apply (grid_mul e (2 * rows - 1) (-1) (2 * c') e); auto using rows_half; [lia|]. rewrite !mult_IZR. change (bpow radix2 (-1)) with (/ 2)%R. field.
Qed.

Lemma x_back : Z.abs a + Z.abs c <= 2 ^ 53 -> grid e a (read_x (geo rows x y cs)).
Proof.
  intros M. unfold read_x, geo. cbn [gt0 gt1]. replace a with (a - c + c) by lia.
  pose proof (half_cell ltac:(lia)) as H. apply grid_add; [lia|lia| |exact H]. apply grid_sub; auto; lia.
Qed.
Lemma y_back : Z.abs b + 2 * rows * Z.abs c <= 2 ^ 53 -> grid e b (read_y (geo rows x y cs) rows).
Proof.
  intros M. unfold read_y, geo. cbn [gt3 gt5]. assert (B : Z.abs ((2 * rows - 1) * c) <= 2 * rows * Z.abs c) by (rewrite Z.abs_mul; nia).
  replace b with (b + (2 * rows - 1) * c + (2 * rows - 1) * - c) by lia. apply grid_add; [lia|lia| |].
  - apply grid_add; [lia|lia|exact Y|]. apply height; [lia|exact C].
  - apply height; [lia|]. replace (2 * - c) with (- (2 * c)) by lia. apply grid_opp. exact C.
Qed.
End Geo.

(** Without exactness: rounding errors only. *)
Lemma prod_opp (p q : f64) : is_finite p = true -> is_finite q = true -> (Rabs (B2R p * B2R q) <= big)%R ->
  is_finite (fmul p q) = true /\ is_finite (fmul p (Bopp q)) = true /\ B2R (fmul p (Bopp q)) = (- B2R (fmul p q))%R.
Proof.
  intros FP FQ B.
  pose proof (Bmult_correct 53 1024 prec_gt_0_53 prec_lt_53 mode_NE p q) as C1. pose proof (Bmult_correct 53 1024 prec_gt_0_53 prec_lt_53 mode_NE p (Bopp q)) as C2.
  change (round radix2 (SpecFloat.fexp 53 1024) (round_mode mode_NE)) with rnd in *. rewrite B2R_Bopp in C2.
  replace (B2R p * - B2R q)%R with (- (B2R p * B2R q))%R in C2 by ring.
  rewrite Rlt_bool_true in C1 by (apply round_bound; exact B). rewrite Rlt_bool_true in C2 by (apply round_bound; rewrite Rabs_Ropp; exact B).
  destruct C1 as (E1 & F1 & _), C2 as (E2 & F2 & _). rewrite is_finite_Bopp in F2. rewrite FP, FQ in *. unfold fmul. repeat split; auto.
  rewrite E1, E2. unfold rnd. apply round_NE_opp.
Qed.

(** [fl (fl (v + p) - p)] for values of bounded size. *)
Lemma there_and_back (v p q : f64) K : is_finite v = true -> is_finite p = true -> is_finite q = true -> B2R q = (- B2R p)%R ->
  (Rabs (B2R v) + Rabs (B2R p) <= K)%R -> (1 <= K)%R -> (4 * K <= big)%R ->
  near (fadd (fadd v p) q) (B2R v) (4 * u * K).
Proof.
  intros FV FP FQ Q B K1 KB. pose proof u_pos as UP. assert (U2 : (u <= / IZR (2 ^ 50))%R).
  { unfold u. apply Rinv_le; [apply IZR_lt; lia|apply IZR_le; lia]. }
  assert (ET : (eta <= / 4 * u)%R).
  { unfold eta, u. change (/ IZR (2 ^ 53))%R with (bpow radix2 (-53)). replace (/ 4)%R with (bpow radix2 (-2)) by (cbn; lra). rewrite <- bpow_plus. apply bpow_le. lia. }
  assert (UK : (u <= u * K)%R) by (rewrite <- (Rmult_1_r u) at 1; apply Rmult_le_compat_l; lra).
  assert (US : (u * K <= / 8 * K)%R). { apply Rmult_le_compat_r; [lra|]. apply Rle_trans with (1 := U2). change (2 ^ 50) with 1125899906842624. lra. }
  assert (S1 : (Rabs (B2R v + B2R p) + 0 + 0 <= K)%R) by (pose proof (Rabs_triang (B2R v) (B2R p)); lra).
  pose proof (add_near v p (B2R v) (B2R p) 0 0 K (near_exact v FV) (near_exact p FP) S1 ltac:(lra)) as N1.
  pose proof (add_near (fadd v p) q (B2R v + B2R p) (B2R q) _ 0 (2 * K) N1 (near_exact q FQ)) as N2.
  replace (B2R v + B2R p + B2R q)%R with (B2R v) in N2 by (rewrite Q; ring).
  eapply near_le; [apply N2|].
  - pose proof (Rabs_pos (B2R p)). lra. - lra. - lra.
Qed.

Lemma back_and_there (v p : f64) K : is_finite v = true -> is_finite p = true ->
  (Rabs (B2R v) + Rabs (B2R p) <= K)%R -> (1 <= K)%R -> (4 * K <= big)%R ->
  near (fadd (fsub v p) p) (B2R v) (4 * u * K).
Proof.
  intros FV FP B K1 KB. pose proof u_pos as UP. assert (U2 : (u <= / IZR (2 ^ 50))%R).
  { unfold u. apply Rinv_le; [apply IZR_lt; lia|apply IZR_le; lia]. }
  assert (ET : (eta <= / 4 * u)%R).
  { unfold eta, u. change (/ IZR (2 ^ 53))%R with (bpow radix2 (-53)). replace (/ 4)%R with (bpow radix2 (-2)) by (cbn; lra). rewrite <- bpow_plus. apply bpow_le. lia. }
  assert (UK : (u <= u * K)%R) by (rewrite <- (Rmult_1_r u) at 1; apply Rmult_le_compat_l; lra).
  assert (US : (u * K <= / 8 * K)%R). { apply Rmult_le_compat_r; [lra|]. apply Rle_trans with (1 := U2). change (2 ^ 50) with 1125899906842624. lra. }
  assert (S1 : (Rabs (B2R v - B2R p) + 0 + 0 <= K)%R) by (pose proof (Rabs_triang (B2R v) (- B2R p)) as T; rewrite Rabs_Ropp in T; unfold Rminus; lra).
  pose proof (sub_near v p (B2R v) (B2R p) 0 0 K (near_exact v FV) (near_exact p FP) S1 ltac:(lra)) as N1.
  pose proof (add_near (fsub v p) p (B2R v - B2R p) (B2R p) _ 0 (2 * K) N1 (near_exact p FP)) as N2.
  replace (B2R v - B2R p + B2R p)%R with (B2R v) in N2 by ring.
  eapply near_le; [apply N2|].
  - pose proof (Rabs_pos (B2R p)). lra. - lra. - lra.
Qed.

(** ** Reading cells back *)
Lemma minmax_signed lo hi nd : -128 <= lo <= 255 -> -128 <= hi <= 255 ->
  signed_band (Some (of_int lo, of_int hi)) nd =
  Ok ((hi <=? 127) && (lo <? 0) || (hi <=? 127) && (0 <=? lo) && match nd with None => true | Some x => flt x f64_zero end).
Proof.
  intros L H. unfold signed_band. cbn [deref obind].
  destruct (of_int_exact lo ltac:(lia)) as [FL VL]. destruct (of_int_exact hi ltac:(lia)) as [FH VH]. destruct (of_int_exact 127 ltac:(lia)) as [F7 V7].
  assert (E1 : Bleb (of_int hi) (of_int 127) = (hi <=? 127)).
  { rewrite Bleb_correct by assumption. rewrite VH, V7. destruct (Rle_bool_spec (IZR hi) 127) as [Q|Q]; [apply (le_IZR hi 127) in Q|apply (lt_IZR 127 hi) in Q]; lia. }
  assert (E2 : flt (of_int lo) f64_zero = (lo <? 0)).
  { rewrite flt_R by auto. rewrite VL. change (B2R f64_zero) with 0%R. destruct (Rlt_bool_spec (IZR lo) 0) as [Q|Q]; [apply (lt_IZR lo 0) in Q|apply (le_IZR 0 lo) in Q]; lia. }
  assert (E3 : Bleb f64_zero (of_int lo) = (0 <=? lo)).
  { rewrite Bleb_correct by auto. rewrite VL. change (B2R f64_zero) with 0%R. destruct (Rle_bool_spec 0 (IZR lo)) as [Q|Q]; [apply (le_IZR 0 lo) in Q|apply (lt_IZR lo 0) in Q]; lia. }
  rewrite E1, E2, E3. reflexivity.
Qed.

Lemma flt_zero (x : f64) z : is_finite x = true -> B2R x = IZR z -> flt x f64_zero = (z <? 0).
Proof. intros F V. rewrite flt_R by auto. rewrite V. change (B2R f64_zero) with 0%R. destruct (Rlt_bool_spec (IZR z) 0) as [Q|Q]; [apply (lt_IZR z 0) in Q|apply (le_IZR 0 z) in Q]; lia. Qed.

Section Back.
Variables (g35 g37 : bool) (t : rdt) (f : tif) (rows cols : Z) (ws : list num).
Hypotheses (FS : file_shows f rows cols ws) (BT : band_type f t) (FW : Forall (of_type t) ws) (LW : Z.of_nat (length ws) = rows * cols).

Lemma cells_length : Z.of_nat (length (f_cells f)) = rows * cols.
Proof. destruct FS as (_ & _ & L & _). lia. Qed.

Lemma cell_at i v : nth_error (f_cells f) i = Some v -> exists w, nth_error ws i = Some w /\ of_type t w /\
  match v with VI z => w = VI (if f_signed f && (128 <=? z) then z - 256 else z) | _ => w = v end.
Proof.
  intros E. destruct FS as (_ & _ & _ & S). specialize (S i). unfold shown in S. rewrite E in S.
  destruct v as [z|x|x]; eexists; (split; [symmetry; exact S|]); (split; [apply (proj1 (Forall_forall _ _) FW); eapply nth_error_In; symmetry; exact S|reflexivity]).
Qed.

Lemma plain_cells : f_signed f = false -> f_cells f = ws.
Proof.
  intros SG. apply nth_error_ext. intros i. destruct FS as (_ & _ & _ & S). rewrite <- S. unfold shown. rewrite SG. destruct (nth_error (f_cells f) i) as [[z|x|x]|]; reflexivity.
Qed.

Lemma read_plain minmax : available g35 t -> (f_type f = GDT_Int8 -> g37 = true) -> f_type f <> GDT_Byte ->
  read_cells g35 g37 t f minmax true (rows * cols) = Ok (Some (ws, t)).
Proof.
  intros (U & A) A8 NB.
  assert (SG : f_signed f = false) by (unfold band_type in BT; destruct t; try tauto; destruct BT; tauto).
  unfold read_cells. cbn [negb]. rewrite (plain_cells SG). rewrite (convert_own t (rows * cols) ws FW LW). cbn [obind].
  unfold band_type in BT. destruct t; try (destruct BT as [E _]; first [rewrite E; reflexivity|congruence|rewrite E, A by auto; reflexivity]).
  - destruct BT.
  - destruct BT as [[E _]|[E _]]; [|congruence]. rewrite E in A8 |- *. rewrite A8 by reflexivity. reflexivity.
Qed.

Lemma convert_back (p q : list num) : length p = length q -> (forall i v, nth_error p i = Some v -> exists w, nth_error q i = Some w /\ cvt t v = Ok w) ->
  convert_array t (Z.of_nat (length p)) p = Ok q.
Proof.
  intros L H. rewrite (convert_all t (fun v => match cvt t v with Ok w => w | _ => v end)).
  - f_equal. apply nth_error_ext. intros i. rewrite nth_error_map. destruct (nth_error p i) as [v|] eqn:E; cbn [option_map].
    + destruct (H i v E) as (w & EW & ->). congruence.
    + symmetry. apply nth_error_None. apply nth_error_None in E. lia.
  - intros v I. destruct (In_nth_error _ _ I) as [i E]. destruct (H i v E) as (w & _ & ->). reflexivity.
  - reflexivity.
Qed.

Lemma read_bytes minmax : f_type f = GDT_Byte -> minmax_ok f minmax ->
  exists t', read_cells g35 g37 t f minmax true (rows * cols) = Ok (Some (ws, t')).
Proof.
  intros TB (lo & hi & -> & (il & SL) & (ih & SH) & AM).
  assert (T8 : t = RDT_UInt8 /\ f_signed f = false \/ t = RDT_Int8 /\ f_signed f = true).
  { unfold band_type in BT. rewrite TB in BT. destruct t; try (destruct BT; discriminate); [left; tauto|right]. destruct BT as [[? ?]|[? ?]]; [discriminate|auto]. }
  assert (IN : forall i z, shown f i = Some (VI z) -> fits t z).
  { intros i z E. destruct FS as (_ & _ & _ & S). rewrite S in E. pose proof (proj1 (Forall_forall _ _) FW _ (nth_error_In _ _ E)) as T. apply T. }
  pose proof (IN _ _ SL) as BL. pose proof (IN _ _ SH) as BH.
  assert (BL' : -128 <= lo <= 255) by (destruct T8 as [[-> _]|[-> _]]; bounds BL; lia).
  assert (BH' : -128 <= hi <= 255) by (destruct T8 as [[-> _]|[-> _]]; bounds BH; lia).
  pose proof (cells_length) as CL.
  unfold read_cells. rewrite TB, (minmax_signed lo hi (f_nodata f) BL' BH'). cbn [obind negb].
  match goal with |- context [if ?c then _ else _] => destruct c eqn:SG end.
  - exists RDT_Int8. rewrite (convert_all RDT_Int8 (fun v => match cvt RDT_Int8 v with Ok w => w | _ => v end) (rows * cols) (f_cells f)); [|intros v I|exact CL].
    + cbn [obind]. set (cs := map _ (f_cells f)).
      assert (CB : convert_array t (Z.of_nat (length cs)) cs = Ok ws).
      { apply convert_back; [unfold cs; rewrite map_length; lia|]. intros i v E. unfold cs in E. rewrite nth_error_map in E.
        destruct (nth_error (f_cells f) i) as [v0|] eqn:E0; cbn [option_map] in E; [|discriminate]. injection E as <-.
        destruct (cell_at i v0 E0) as (w & EW & TW & WV). exists w. split; [exact EW|].
        destruct v0 as [z|x|x]; [|subst w; destruct T8 as [[-> _]|[-> _]]; discriminate|subst w; destruct T8 as [[-> _]|[-> _]]; discriminate].
        change (cvt t (VI (wrap (least RDT_Int8) (most RDT_Int8) z)) = Ok w). rewrite cvt_int by (destruct T8 as [[-> _]|[-> _]]; unfold integer_type; discriminate). subst w. do 2 f_equal. destruct TW as [_ FZ].
        destruct T8 as [[-> SU]|[-> SU]]; rewrite SU in *; cbn [andb] in *.
        - assert (Z7 : 0 <= z <= 127).
          { assert (SZ : shown f i = Some (VI z)) by (unfold shown; rewrite E0, SU; reflexivity). bounds FZ. bounds BL. destruct (AM i z SZ) as [X|(nd & ND & NF & NV)]; [lia|].
            rewrite ND, (flt_zero nd z NF NV) in SG. lia. }
          change (least RDT_Int8) with (-128). change (most RDT_Int8) with 127. rewrite (wrap_id (-128) 127) by lia. apply wrap_id. exact FZ.
        - rewrite wrap_again by (cbn; lia). destruct (128 <=? z) eqn:Z8; cbv beta iota in *; [|apply wrap_id; exact FZ].
          rewrite <- (wrap_id (least RDT_Int8) (most RDT_Int8) (z - 256)) by exact FZ. unfold wrap. f_equal. change (most RDT_Int8 - least RDT_Int8 + 1) with 256.
          replace (z - least RDT_Int8) with (z - 256 - least RDT_Int8 + 1 * 256) by lia. apply Z.mod_add. lia. }
      replace (rows * cols) with (Z.of_nat (length cs)) by (unfold cs; rewrite map_length; lia). rewrite CB. reflexivity.
    + destruct (In_nth_error _ _ I) as [i E0]. destruct (cell_at i v E0) as (w & EW & TW & WV).
      destruct v as [z|x|x]; [rewrite (cvt_int RDT_Int8 z) by (unfold integer_type; discriminate); reflexivity|subst w; destruct T8 as [[-> _]|[-> _]]; discriminate|subst w; destruct T8 as [[-> _]|[-> _]]; discriminate].
  - exists RDT_UInt8.
    assert (CB : convert_array t (Z.of_nat (length (f_cells f))) (f_cells f) = Ok ws).
    { apply convert_back; [destruct FS as (_ & _ & X & _); exact X|]. intros i v0 E0.
      destruct (cell_at i v0 E0) as (w & EW & TW & WV). exists w. split; [exact EW|].
      destruct v0 as [z|x|x]; [|subst w; destruct T8 as [[-> _]|[-> _]]; discriminate|subst w; destruct T8 as [[-> _]|[-> _]]; discriminate].
      rewrite cvt_int by (destruct T8 as [[-> _]|[-> _]]; unfold integer_type; discriminate). subst w. do 2 f_equal. destruct TW as [_ FZ].
      destruct T8 as [[-> SU]|[-> SU]]; rewrite SU in *; cbn [andb] in *; [apply wrap_id; exact FZ|].
      destruct (128 <=? z) eqn:Z8; cbv beta iota in *; [|apply wrap_id; exact FZ].
      rewrite <- (wrap_id (least RDT_Int8) (most RDT_Int8) (z - 256)) by exact FZ. unfold wrap. f_equal. change (most RDT_Int8 - least RDT_Int8 + 1) with 256.
      replace (z - least RDT_Int8) with (z - 256 - least RDT_Int8 + 1 * 256) by lia. apply Z.mod_add. lia. }
    rewrite CL in CB. rewrite CB. reflexivity.
Qed.

Lemma read_type minmax out : f_type f = GDT_Byte -> f_signed f = false -> minmax_ok f minmax ->
  (forall i z, shown f i = Some (VI z) -> z <= 127) -> (exists nd, f_nodata f = Some nd /\ flt nd f64_zero = true) ->
  read_cells g35 g37 t f minmax true (rows * cols) = Ok (Some out) -> snd out = RDT_Int8.
Proof.
  intros TB SU (lo & hi & -> & (il & SL) & (ih & SH) & AM) SM (nd & ND & NN).
  assert (IN : forall i z, shown f i = Some (VI z) -> 0 <= z <= 127).
  { intros i z E. split; [|exact (SM i z E)]. destruct FS as (_ & _ & _ & S). rewrite S in E. pose proof (proj1 (Forall_forall _ _) FW _ (nth_error_In _ _ E)) as [_ T].
    unfold band_type in BT. rewrite TB, SU in BT. destruct t; try (destruct BT; discriminate); [bounds T; lia|destruct BT as [[? ?]|[? ?]]; discriminate]. }
  unfold read_cells. rewrite TB. pose proof (IN _ _ SL). pose proof (IN _ _ SH). rewrite minmax_signed by lia. rewrite ND, NN. cbn [obind negb].
  replace ((hi <=? 127) && (lo <? 0) || (hi <=? 127) && (0 <=? lo) && true) with true by lia.
  destruct (convert_array RDT_Int8 _ _) as [c| |]; cbn [obind]; try discriminate. destruct (convert_array t _ c) as [c'| |]; cbn [obind]; try discriminate. intros E. injection E as <-. reflexivity.
Qed.
End Back.
