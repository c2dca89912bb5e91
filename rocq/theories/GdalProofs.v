(** Lemmas about writing GeoTIFF rasters. *)
From Coq Require Import ZArith Reals Ascii String List Bool Lia Lra ZifyBool ZifyNat Permutation.
From Flocq Require Import Core BinarySingleNaN.
From Verif Require Import Base ListLib StrModel StrSpec FsModel MapModel MapProofs RasterModel RasterSpec RasterProofs RasterProofs2 RasterProofs3 BasicModel FloatModel FloatProofs
  CoordFloatModel CoordFloatProofs TypeModel MongoModel CopyModel AscModel AscSpec AscProofs AscProofs2 CellModel CellSpec CellProofs CellProofs2 GdalModel GdalSpec.
Import ListNotations.
Open Scope Z_scope.
Open Scope outcome_scope.

(** ** The loops over the cells *)
Section Loop.
Variables (f : num -> outcome (num * bool)) (vs : list num).

Definition body (st : list (option num) * Z) (i : nat) : outcome (list (option num) * Z) :=
  let* v := aget vs (Z.of_nat i) in
  let* w := f v in
  let* a := aset (fst st) (Z.of_nat i) (Some (fst w)) in
  Ok (a, snd st + if snd w then 1 else 0).

Lemma aget_nat {A} (l : list A) i v : nth_error l i = Some v -> aget l (Z.of_nat i) = Ok v.
Proof. intros E. apply aget_ok; [lia|]. rewrite Nat2Z.id. exact E. Qed.

Definition weight (g : num -> num * bool) (i : nat) : Z := match nth_error vs i with Some v => if snd (g v) then 1 else 0 | None => 0 end.

Lemma loop_ok (g : num -> num * bool) : (forall v, In v vs -> f v = Ok (g v)) -> forall ord a c,
  Forall (fun i => (i < length vs)%nat) ord -> length a = length vs ->
  ofold body ord (a, c) = Ok (fold_left (fun d i => match nth_error (map (fun v => Some (fst (g v))) vs) i with Some v => upd d i v | None => d end) ord a,
                              c + fold_right Z.add 0 (map (weight g) ord)).
Proof.
  intros H. induction ord as [|i ord IH]; intros a c F L; cbn [ofold fold_left map fold_right].
  - rewrite Z.add_0_r. reflexivity.
  - inversion F; subst. destruct (nth_error vs i) as [v|] eqn:E; [|apply nth_error_None in E; lia].
    unfold body at 1. rewrite (aget_nat _ _ _ E). cbn [obind]. rewrite (H v) by (eapply nth_error_In; eassumption). cbn [obind fst snd].
    rewrite aset_ok by lia. cbn [obind]. rewrite IH by (rewrite ?upd_length; auto). rewrite nth_error_map, E. cbn [option_map].
    rewrite Nat2Z.id. unfold weight at 2. rewrite E. rewrite Z.add_assoc. reflexivity.
Qed.

Lemma weight_pos g ord : fold_right Z.add 0 (map (weight g) ord) >= 0 /\
  (0 < fold_right Z.add 0 (map (weight g) ord) <-> exists i v, In i ord /\ nth_error vs i = Some v /\ snd (g v) = true).
Proof.
  induction ord as [|i ord [IH1 IH2]]; cbn [map fold_right].
  - split; [lia|]. split; [lia|]. intros (i & v & [] & _).
  - assert (W : weight g i >= 0 /\ (0 < weight g i <-> exists v, nth_error vs i = Some v /\ snd (g v) = true)).
    { unfold weight. destruct (nth_error vs i) as [v|] eqn:E.
      - destruct (snd (g v)) eqn:G; (split; [lia|]); split; try lia; intros; [exists v; auto|]. destruct H as (v' & E' & G'). congruence.
      - split; [lia|]. split; [lia|]. intros (v & X & _). discriminate. }
    destruct W as [W1 W2]. split; [lia|]. split.
    + intros P. destruct (Z_lt_dec 0 (weight g i)) as [Q|Q].
      * apply W2 in Q. destruct Q as (v & A & B). exists i, v. split; [left; auto|auto].
      * destruct (proj1 IH2) as (j & v & A & B & C); [lia|]. exists j, v. split; [right; auto|auto].
    + intros (j & v & [<-|J] & A & B).
      * pose proof (proj2 W2 (ex_intro _ v (conj A B))). lia.
      * pose proof (proj2 IH2 (ex_intro _ j (ex_intro _ v (conj J (conj A B))))). lia.
Qed.

Lemma loop_all g ord n : (forall v, In v vs -> f v = Ok (g v)) -> Z.of_nat (length vs) = n -> schedule n ord ->
  exists c, ofold body ord (repeat None (Z.to_nat n), 0) = Ok (map (fun v => Some (fst (g v))) vs, c) /\ c >= 0 /\
    (0 < c <-> exists v, In v vs /\ snd (g v) = true).
Proof.
  intros H L S. assert (N : Z.to_nat n = length vs) by lia. eexists. split.
  - rewrite (loop_ok g H).
    + rewrite par_fill_all; [reflexivity|rewrite repeat_length, map_length; exact N|].
      rewrite map_length, <- N. exact S.
    + exact (schedule_bound _ _ _ S L).
    + rewrite repeat_length. exact N.
  - destruct (weight_pos g ord) as [P Q]. split; [lia|]. rewrite Z.add_0_l, Q. split.
    + intros (i & v & _ & A & B). exists v. split; [eapply nth_error_In; eassumption|exact B].
    + intros (v & A & B). destruct (In_nth_error _ _ A) as [i E]. exists i, v. split; [|auto].
      assert (i < length vs)%nat by (apply nth_error_Some; congruence).
      apply (Permutation_in (l := seq 0 (Z.to_nat n))); [symmetry; exact S|]. apply in_seq. lia.
Qed.

(** An undefined conversion makes the loop undefined, whatever comes first. *)
Lemma loop_ub ord n v0 : (forall v, In v vs -> f v = UB \/ exists w, f v = Ok w) -> Z.of_nat (length vs) = n -> schedule n ord ->
  In v0 vs -> f v0 = UB -> ofold body ord (repeat None (Z.to_nat n), 0) = UB.
Proof.
  intros H L S I0 U. destruct (In_nth_error _ _ I0) as [i0 E0].
  assert (J : In i0 ord).
  { assert (i0 < length vs)%nat by (apply nth_error_Some; congruence).
    apply (Permutation_in (l := seq 0 (Z.to_nat n))); [symmetry; exact S|]. apply in_seq. lia. }
  assert (B := schedule_bound _ _ _ S L). assert (A : length (repeat (@None num) (Z.to_nat n)) = length vs) by (rewrite repeat_length; lia).
  revert A. generalize (repeat (@None num) (Z.to_nat n)) 0. clear S L. induction ord as [|i ord IH]; intros a c A; [destruct J|].
  inversion B; subst. cbn [ofold]. destruct (nth_error vs i) as [v|] eqn:E; [|apply nth_error_None in E; lia].
  unfold body at 1. rewrite (aget_nat _ _ _ E). cbn [obind]. destruct (H v) as [X|[w X]]; [eapply nth_error_In; eassumption| |].
  - rewrite X. reflexivity.
  - rewrite X. cbn [obind fst snd]. rewrite aset_ok by lia. cbn [obind]. apply IH; auto.
    + destruct J as [->|J]; [|exact J]. congruence.
    + rewrite upd_length. exact A.
Qed.
End Loop.

Lemma fit_cells_body s t nd z ch ord n vs : fit_cells s t nd z ch ord n (Some vs) = ofold (body (fit_cell s t nd z ch) vs) ord (repeat None (Z.to_nat n), 0).
Proof. reflexivity. Qed.

Lemma widen_body t vs ord : forall a c, omap fst (ofold (body (fun v => let* w := cvt t v in Ok (w, false)) vs) ord (a, c)) =
  ofold (fun a i => let* v := aget vs (Z.of_nat i) in let* w := cvt t v in aset a (Z.of_nat i) (Some w)) ord a.
Proof.
  induction ord as [|i ord IH]; intros a c; cbn [ofold]; [reflexivity|]. unfold body at 1.
  destruct (aget vs (Z.of_nat i)) as [v| |]; cbn [obind omap]; auto. destruct (cvt t v) as [w| |]; cbn [obind omap fst snd]; auto.
  destruct (aset a (Z.of_nat i) (Some w)) as [a'| |]; cbn [obind omap]; auto.
Qed.

Lemma widen_all t g ord n vs : (forall v, In v vs -> cvt t v = Ok (g v)) -> Z.of_nat (length vs) = n -> schedule n ord ->
  widen_cells t ord n (Some vs) = Ok (map (fun v => Some (g v)) vs).
Proof.
  intros H L S. unfold widen_cells. cbn [deref obind]. rewrite <- (widen_body t vs ord _ 0).
  destruct (loop_all (fun v => let* w := cvt t v in Ok (w, false)) vs (fun v => (g v, false)) ord n) as (c & E & _); auto.
  - intros v I. rewrite (H v I). reflexivity.
  - rewrite E. reflexivity.
Qed.

(** ** Handing the array over *)
Lemma transfer_all n vs : Z.of_nat (length vs) = n -> transfer n (map Some vs) = Ok vs.
Proof.
  intros L. unfold transfer.
  assert (G : forall k, (k <= length vs)%nat -> ofold (fun acc i => let* v := aget (map Some vs) i in let* w := deref v in Ok (acc ++ [w])) (zseq (Z.of_nat k)) [] = Ok (firstn k vs)).
  { induction k as [|k IH]; intros K; [reflexivity|]. replace (Z.of_nat (S k)) with (Z.of_nat k + 1) by lia. rewrite zseq_S, ofold_app, IH by lia. cbn [obind ofold].
    destruct (nth_error vs k) as [v|] eqn:E; [|apply nth_error_None in E; lia].
    rewrite (aget_nat (map Some vs) k (Some v)) by (rewrite nth_error_map, E; reflexivity). cbn [obind deref]. f_equal.
    clear - E. revert vs E. induction k as [|k IH]; intros [|x vs] E; cbn in E |- *; try discriminate; [congruence|]. rewrite IH by assumption. reflexivity. }
  rewrite <- L, G by lia. rewrite firstn_all. reflexivity.
Qed.
Lemma transfer_map {A} n (g : A -> num) vs : Z.of_nat (length vs) = n -> transfer n (map (fun v => Some (g v)) vs) = Ok (map g vs).
Proof. intros L. rewrite <- (map_map g Some). apply transfer_all. rewrite map_length. exact L. Qed.

(** ** The writer of one grid *)
Definition outsideb (t : rdt) (nd : f64) : bool := flt nd (of_int (least t)) || flt (of_int (most t)) nd.
Lemma outsideb_iff t nd : outsideb t nd = true <-> outside t nd.
Proof. unfold outsideb, outside. apply orb_true_iff. Qed.

Lemma fit_nodata_eq t nd : integer_type t ->
  fit_nodata t nd = Some (if outsideb t nd then of_int (substitute t) else nd, substitute t, outsideb t nd).
Proof.
  intros H. destruct (limits_some t H) as (tlo & thi & E). unfold fit_nodata. rewrite E.
  fold (outsideb t nd). types H; cbv zeta; destruct (outsideb _ nd); reflexivity.
Qed.

Definition signed_bytes (g37 : bool) (t : rdt) : bool := match t with RDT_Int8 => negb g37 | _ => false end.

Lemma output_fit g35 g37 s t nd ord n values : integer_type t -> available g35 t -> (s = t -> t = RDT_Int8) ->
  output_array g35 g37 s t nd ord n values =
  let* st := fit_cells s t nd (substitute t) (outsideb t nd) ord n values in
  if 0 <? snd st then Ok None
  else Ok (Some (t, Some (fst st), if outsideb t nd then of_int (substitute t) else nd, signed_bytes g37 t)).
Proof.
  intros H (U & G) P. unfold output_array.
  match goal with |- (if ?c then _ else _) = _ => assert (C : c = false) end.
  { types H; try reflexivity; destruct s; try reflexivity; exfalso; (discriminate (P eq_refl)). }
  rewrite C. rewrite fit_nodata_eq by assumption.
  types H; cbv zeta; unfold signed_bytes; try (rewrite (G (or_introl eq_refl))); try (rewrite (G (or_intror eq_refl))); reflexivity.
Qed.

Lemma output_same g35 g37 s out nd ord n values : s <> RDT_Unknown -> (out = RDT_Unknown \/ out = s /\ s <> RDT_Int8) ->
  output_array g35 g37 s out nd ord n values = Ok (Some (s, option_map (map Some) values, nd, false)).
Proof.
  intros U [->|[-> I]]; unfold output_array; destruct s; try reflexivity; congruence.
Qed.

Lemma output_wide g35 g37 s t nd ord n values : floating_type t -> s <> t ->
  output_array g35 g37 s t nd ord n values = let* a := widen_cells t ord n values in Ok (Some (t, Some a, nd, false)).
Proof. intros [->| ->] N; unfold output_array; destruct s; try reflexivity; congruence. Qed.

Section Writer.
Variables (g35 g37 : bool) (s : rdt) (ord : list nat) (h : smap f64) (opts : smap bytes) (cols rows : Z) (x y cs nd : f64).
Hypotheses (HS : header_shows h cols rows x y cs nd) (G : grid_size rows cols).

Lemma size_facts : in_int rows /\ in_int cols /\ 0 < rows /\ 0 < cols /\ imul cols rows = Ok (rows * cols) /\ imul rows cols = Ok (rows * cols).
Proof.
  destruct G as (A & B & C). rewrite (imul_ok rows cols), (imul_ok cols rows) by lia. rewrite (Z.mul_comm cols rows).
  unfold in_int, INT_MIN, INT_MAX in *. repeat split; try assumption; nia.
Qed.

Definition geo : geotrans :=
  mkGeo (fsub x (fmul half cs)) cs f64_zero (fadd y (fmul (fsub (of_int rows) half) cs)) f64_zero (Bopp cs).
Definition file_of (t : rdt) (sgn : bool) (nd' : f64) (ws : list num) : tif :=
  mkTif (CvtToGDALDataType g35 g37 t) sgn rows cols (map (stored_as (CvtToGDALDataType g35 g37 t)) ws) (Some nd') geo (projection opts).

Lemma write_eq made moved values out :
  RasterDataTypeInOptionals opts = out ->
  WriteSingleGeotiff g35 g37 s ord made moved h opts values =
  let* o := output_array g35 g37 s out nd ord (rows * cols) values in
  match o with
  | None => Ok None
  | Some (t, a, nd', sgn) =>
      if negb made || (match CvtToGDALDataType g35 g37 t with GDT_Unknown => true | _ => false end) then Ok None
      else match a with
           | None => Ok None
           | Some b => let* cells := transfer (rows * cols) b in
                       if negb moved then Ok None else Ok (Some (file_of t sgn nd' cells))
           end
  end.
Proof.
  intros <-. destruct HS as (H1 & H2 & H3 & H4 & H5 & H6). destruct size_facts as (IR & IC & PR & PC & IM & _).
  unfold WriteSingleGeotiff, at_get, K_NROWS, K_NCOLS, K_NODATA. rewrite H1, H2, H6. cbn [obind]. rewrite !f_int_of_int by assumption. cbn [obind]. rewrite IM. cbn [obind].
  destruct (output_array _ _ _ _ _ _ _ _) as [[[[[t a] nd'] sgn]|]| |]; cbn [obind]; auto.
  replace (rows <=? 0) with false by lia. replace (cols <=? 0) with false by lia. rewrite !orb_false_r.
  destruct (negb made || _); auto. destruct a as [a|]; auto. destruct (transfer (rows * cols) a) as [c| |]; cbn [obind]; auto.
  destruct (negb moved); auto. unfold geo_of_header, at_get, K_XLL, K_CELLSIZE, K_YLL. rewrite H3, H4, H5. reflexivity.
Qed.

Lemma asks_type t : asks opts t -> RasterDataTypeInOptionals opts = t.
Proof. intros (w & E & <-). unfold RasterDataTypeInOptionals, K_OUTTYPE. rewrite E. reflexivity. Qed.
Lemma asks_no_type : asks_nothing opts -> RasterDataTypeInOptionals opts = RDT_Unknown.
Proof. intros E. unfold RasterDataTypeInOptionals, K_OUTTYPE. rewrite E. reflexivity. Qed.

Lemma known_band t : available g35 t -> CvtToGDALDataType g35 g37 t <> GDT_Unknown.
Proof.
  intros (U & A). destruct t; cbn; try congruence; try (destruct g37; discriminate).
  - rewrite (A (or_introl eq_refl)). discriminate.
  - rewrite (A (or_intror eq_refl)). discriminate.
Qed.
Lemma known_band' t : available g35 t -> (match CvtToGDALDataType g35 g37 t with GDT_Unknown => true | _ => false end) = false.
Proof. intros A. pose proof (known_band t A). destruct (CvtToGDALDataType g35 g37 t); congruence. Qed.

(** The file shows the cells handed over, if they are of its type. *)
Lemma file_cells t nd' ws : Forall (of_type t) ws ->
  file_shows (file_of t (signed_bytes g37 t) nd' ws) rows cols ws.
Proof.
  intros F. repeat (split; [first [reflexivity|apply map_length]|]). intros i. unfold shown, file_of. cbn [f_cells f_signed].
  rewrite nth_error_map. destruct (nth_error ws i) as [v|] eqn:E; [|reflexivity]. cbn [option_map].
  pose proof (proj1 (Forall_forall _ _) F v (nth_error_In _ _ E)) as T. destruct v as [z|u|u].
  - cbn in T. destruct T as (I & B). assert (K : stored_as (CvtToGDALDataType g35 g37 t) (VI z) = VI (if signed_bytes g37 t && (z <? 0) then z + 256 else z)).
    { types I; cbn [CvtToGDALDataType signed_bytes andb]; try reflexivity; bounds B; try (destruct g35; reflexivity).
      - cbn [stored_as]. rewrite wrap_id by lia. reflexivity.
      - destruct g37; cbn [negb andb stored_as]; [reflexivity|]. f_equal. unfold wrap. change (255 - 0 + 1) with 256. destruct (Z.ltb_spec z 0); [|rewrite Z.mod_small by lia; lia].
        rewrite <- (Z.mod_add _ 1) by lia. rewrite Z.mod_small by lia. lia. }
    rewrite K. f_equal. f_equal. destruct (signed_bytes g37 t) eqn:SB; cbn [andb]; [|reflexivity].
    destruct t; try discriminate. bounds B. destruct (Z.ltb_spec z 0); match goal with |- (if ?c then _ else _) = _ => destruct c eqn:? end; lia.
  - destruct (CvtToGDALDataType g35 g37 t); reflexivity.
  - destruct (CvtToGDALDataType g35 g37 t); reflexivity.
Qed.

Lemma file_type t nd' ws : available g35 t -> band_type (file_of t (signed_bytes g37 t) nd' ws) t.
Proof.
  intros (U & A). unfold band_type, file_of. cbn [f_type f_signed]. destruct t; cbn; auto.
  - destruct g37; auto.
  - rewrite (A (or_introl eq_refl)). auto.
  - rewrite (A (or_intror eq_refl)). auto.
Qed.

(** ** Integer cells to an integer type *)
Section Integers.
Variables (t : rdt) (vs : list num).
Hypotheses (HT : integer_type t) (HA : available g35 t) (HN : s = t -> t = RDT_Int8) (HO : asks opts t)
  (HL : Z.of_nat (length vs) = rows * cols) (HC : schedule (rows * cols) ord).

Lemma write_fit made moved : WriteSingleGeotiff g35 g37 s ord made moved h opts (Some vs) =
  let* st := fit_cells s t nd (substitute t) (outsideb t nd) ord (rows * cols) (Some vs) in
  if (0 <? snd st) || negb made then Ok None
  else let* cells := transfer (rows * cols) (fst st) in
       if negb moved then Ok None else Ok (Some (file_of t (signed_bytes g37 t) (if outsideb t nd then of_int (substitute t) else nd) cells)).
Proof.
  rewrite (write_eq made moved (Some vs) t (asks_type t HO)), output_fit by assumption.
  destruct (fit_cells s t nd _ _ ord _ _) as [st| |]; cbn [obind]; auto. destruct (0 <? snd st); cbn [obind orb]; auto.
  rewrite (known_band' t HA), orb_false_r. reflexivity.
Qed.

Definition replacedb (v : num) : bool := FloatEqual (as_double v) nd && outsideb t nd.
Lemma replacedb_iff v : replacedb v = true <-> replaced t nd v.
Proof. unfold replacedb, replaced, is_nodata. rewrite andb_true_iff, outsideb_iff. tauto. Qed.

Lemma write_general (g : num -> num * bool) made moved : (forall v, In v vs -> fit_cell s t nd (substitute t) (outsideb t nd) v = Ok (g v)) ->
  ((exists v, In v vs /\ snd (g v) = true) -> WriteSingleGeotiff g35 g37 s ord made moved h opts (Some vs) = Ok None) /\
  (~ (exists v, In v vs /\ snd (g v) = true) -> WriteSingleGeotiff g35 g37 s ord true true h opts (Some vs) =
     Ok (Some (file_of t (signed_bytes g37 t) (if outsideb t nd then of_int (substitute t) else nd) (map (fun v => fst (g v)) vs)))).
Proof.
  intros H. rewrite !write_fit, fit_cells_body. destruct (loop_all _ vs g ord (rows * cols) H HL HC) as (c & E & C & P). rewrite E. cbn [obind fst snd].
  split; intros B.
  - apply P in B. replace (0 <? c) with true by lia. reflexivity.
  - assert (~ 0 < c) by (rewrite P; exact B). replace (0 <? c) with false by lia. cbn [orb negb].
    rewrite (transfer_map (rows * cols) (fun v => fst (g v))) by exact HL. reflexivity.
Qed.
End Integers.
End Writer.

(** ** One cell *)
Lemma fit_int s t nd z : integer_type t ->
  exists tlo thi, limits t = Some ((least t, tlo), (most t, thi)) /\
  fit_cell s t nd (substitute t) (outsideb t nd) (VI z) =
  Ok (if replacedb nd t (VI z) then (VI (substitute t), false)
      else (VI (wrap (least t) (most t) z), less s (VI z) (least t) tlo || greater s (VI z) (most t) thi)).
Proof.
  intros H. destruct (limits_some t H) as (tlo & thi & E). exists tlo, thi. split; [exact E|]. unfold fit_cell. fold (replacedb nd t (VI z)).
  destruct (replacedb nd t (VI z)); [reflexivity|]. rewrite E, (cvt_int t z H). reflexivity.
Qed.

Lemma fit_floating s t nd v : integer_type t -> is_floating v -> 
  (replacedb nd t v = true -> fit_cell s t nd (substitute t) (outsideb t nd) v = Ok (VI (substitute t), false)) /\
  (replacedb nd t v = false ->
    (forall r, real_of v = Some r -> (IZR (least t) <= r <= IZR (most t))%R -> fit_cell s t nd (substitute t) (outsideb t nd) v = Ok (VI (Ztrunc r), false)) /\
    (forall r, real_of v = Some r -> (IZR (least t - 1) < r < IZR (most t + 1))%R -> ~ (IZR (least t) <= r <= IZR (most t))%R ->
       fit_cell s t nd (substitute t) (outsideb t nd) v = Ok (VI (Ztrunc r), true)) /\
    ((forall r, real_of v = Some r -> ~ (IZR (least t - 1) < r < IZR (most t + 1))%R) -> fit_cell s t nd (substitute t) (outsideb t nd) v = UB)).
Proof.
  intros H F. destruct (limits_some t H) as (tlo & thi & E). unfold fit_cell. fold (replacedb nd t v).
  split; intros ->; [reflexivity|]. rewrite E. repeat split.
  - intros r R B.
    assert (C : (IZR (least t - 1) < r < IZR (most t + 1))%R).
    { rewrite minus_IZR, plus_IZR. lra. }
    rewrite (cast_good t v r) by assumption.
    cbn [obind]. rewrite (floating_in s t v r) by assumption. reflexivity.
  - intros r R B N. rewrite (cast_good t v r) by auto. cbn [obind]. rewrite (floating_out s t v r) by assumption. reflexivity.
  - intros B. rewrite cast_bad by assumption. reflexivity.
Qed.

Lemma of_int_finite t : integer_type t -> is_finite (of_int (substitute t)) = true.
Proof. intros H. types H; vm_compute; reflexivity. Qed.
Lemma substitute_fits t : integer_type t -> of_type t (VI (substitute t)).
Proof. intros H. split; [exact H|]. unfold substitute, fits. pose proof (fits_ordered t). destruct (int_kind t) as [[w []]|]; lia. Qed.
Lemma substitute_nodata t : integer_type t -> is_nodata (of_int (substitute t)) (VI (substitute t)).
Proof. intros H. apply FloatEqual_same; try reflexivity; apply of_int_finite; exact H. Qed.
