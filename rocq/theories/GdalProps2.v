(** GeoTIFF rasters: raster objects, geometry, round trips. *)
From Coq Require Import ZArith QArith Reals Ascii String List Bool Lia Lra ZifyBool ZifyNat Permutation.
From Flocq Require Import Core BinarySingleNaN.
From Verif Require Import Base ListLib StrModel StrSpec FsModel MapModel RasterModel RasterSpec RasterProofs RasterProofs2 RasterProofs3 BasicModel FloatModel FloatProofs
  CoordFloatModel CoordFloatProofs TypeModel MongoModel CopyModel AscModel AscSpec CellModel CellSpec CellProofs CellProofs2 GdalModel GdalSpec GdalProofs GdalProofs2 GdalProofs3 GdalProps.
Import List ListNotations.
Open Scope Z_scope.

(** For examples: a raster with a NoData cell, as it is and without that cell;
    one with two layers. *)
Definition num_eq (a b : num) : bool := FloatEqual (as_double a) (as_double b).
Definition tif_one : raster num := FromArray (Some [VI 5; VI (-9); VI 7; VI 8]) 2 2 (VI (-9)) (VI 0) 10%Q 0%Q 3%Q.
Definition tif_two : raster num := FromArray2D (Some [[VI 5; VI 50]; [VI 6; VI 60]; [VI (-9); VI 70]; [VI 8; VI 80]]) 2 2 2 (VI (-9)) (VI 0) 10%Q 0%Q 3%Q.
Definition after_calc (r : raster num) : raster num := match SetCalcPositions num_eq [1; 0; 2]%nat r with Ok (r', _) => r' | _ => r end.
Definition tif_dropped : raster num := after_calc tif_one.
Definition tif_os : os := {| realpath := fun f => Some (match f with "/"%char :: _ => f | _ => str "/d/" ++ f end); isdir := fun _ => false |}.
Definition no_order : bytes -> list nat := fun _ => [].
Definition yes : bytes -> bool := fun _ => true.
(** Flag, and names and cells of the files. *)
Definition files_of (m : outcome (bool * list (bytes * tif))) : option (bool * list (bytes * list num)) :=
  match m with Ok (b, fs) => Some (b, map (fun nf => (fst nf, f_cells (snd nf))) fs) | _ => None end.
Definition file_in (m : outcome (option tif)) : option tif := match m with Ok o => o | _ => None end.
(** Flag, values and type found by the reader. *)
Definition found (m : outcome gread) : option (bool * option (list num) * rdt) :=
  match m with Ok g => Some (g_ok g, g_values g, g_intype g) | _ => None end.

Lemma tif_full_one : full_grid tif_one.
Proof. unfold full_grid, storage, tif_one; cbn. repeat split; try lia. eexists. split; reflexivity. Qed.
Lemma tif_full_two : full_grid tif_two.
Proof.
  unfold full_grid, storage, tif_two; cbn. repeat split; try lia. eexists. split; [reflexivity|]. split; [reflexivity|].
  repeat constructor.
Qed.
Lemma tif_compact : compact tif_dropped [0; 2; 3].
Proof.
  replace [0; 2; 3] with (valid_idx num_eq tif_one) by (vm_compute; reflexivity).
  unfold tif_dropped, after_calc. rewrite (SetCalcPositions_full num_eq tif_one [1; 0; 2]%nat tif_full_one); [|apply perm_swap].
  destruct (compacted_shape num_eq tif_one tif_full_one) as [(X & _)|(_ & X)]; [vm_compute in X; discriminate|exact X].
Qed.

(** Every value the object returns is of the type. *)
Definition cells_of_type (s : rdt) (r : raster num) : Prop :=
  forall i j lyr v, inside r i j -> layer_ok r lyr -> GetValue r i j lyr = Ok v -> of_type s v.

Lemma values_of_type s (r : raster num) lyr vs : 0 < r_cols r -> cells_of_type s r -> layer_ok r lyr -> layer_values r lyr vs -> Forall (of_type s) vs.
Proof.
  intros C CT L [LV H]. apply Forall_forall. intros v I. destruct (In_nth_error _ _ I) as [k E]. set (z := Z.of_nat k).
  assert (K : 0 <= z < r_rows r * r_cols r) by (assert (k < length vs)%nat by (apply nth_error_Some; congruence); lia).
  assert (IN : inside r (z / r_cols r) (z mod r_cols r)).
  { split; [split; [apply Z.div_pos; lia|apply Z.div_lt_upper_bound; nia]|apply Z.mod_pos_bound; lia]. }
  destruct (H _ _ IN) as (w & W1 & W2). replace (z / r_cols r * r_cols r + z mod r_cols r) with z in W1 by (rewrite Z.mul_comm; apply Z.div_mod; lia).
  replace (Z.to_nat z) with k in W1 by lia. assert (w = v) by congruence. subst w. apply (CT _ _ _ _ IN L W2).
Qed.

(** * C43: every cell in its place *)

(** One layer: the file shows what GetValue returns. *)
Theorem C43_one_layer : forall o g35 g37 s ord made moved h opts (r : raster num) filename x y cs nd,
  holds_data r -> r_is2d r = false -> grid_size (r_rows r) (r_cols r) -> header_shows h (r_cols r) (r_rows r) x y cs nd ->
  asks_nothing opts \/ asks opts s -> available g35 s -> s <> RDT_Int8 -> cells_of_type s r ->
  made (GetAbsolutePath o filename) = true -> moved (GetAbsolutePath o filename) = true ->
  exists f vs, OutputFileByGdal o g35 g37 s ord made moved h opts r filename = Ok (true, [(GetAbsolutePath o filename, f)]) /\
    band_type f s /\ f_nodata f = Some nd /\ f_srs f = projection opts /\
    file_shows f (r_rows r) (r_cols r) vs /\ layer_values r 1 vs.
Proof.
  intros o g35 g37 s ord made moved h opts r filename x y cs nd HD D G HS AO AV N8 CT MA MO.
  destruct (output_one o g35 g37 s ord made moved h opts r filename x y cs nd HD G HS D) as (vs & V & E).
  assert (LO : layer_ok r 1) by (pose proof (nlyrs_pos r HD); unfold layer_ok; lia).
  pose proof G as (_ & GC & _). pose proof (values_of_type s r 1 vs GC CT LO V) as FT.
  destruct (C46_same g35 g37 s (ord (GetAbsolutePath o filename)) h opts _ _ x y cs nd vs HS G AO AV N8 FT (proj1 V)) as (f & W & B & N & P & S).
  exists f, vs. rewrite E, MA, MO, W. cbn [obind]. repeat (split; [first [reflexivity|assumption]|]). exact V.
Qed.
Print Assumptions C43_one_layer.

Lemma tif_cells : cells_of_type RDT_Int32 tif_dropped.
Proof.
  assert (K : integer_type RDT_Int32) by discriminate. unfold cells_of_type, inside, layer_ok. intros i j lyr v (I & J) L E.
  change (r_rows tif_dropped) with 2 in I. change (r_cols tif_dropped) with 2 in J. change (r_nlyrs tif_dropped) with 1 in L.
  assert (CI : i = 0 \/ i = 1) by lia. assert (CJ : j = 0 \/ j = 1) by lia. assert (lyr = 1) by lia. subst lyr.
  destruct CI as [-> | ->], CJ as [-> | ->]; vm_compute in E; injection E as <-; (split; [exact K|split; vm_compute; discriminate]).
Qed.
Example C43_one_layer_ex : holds_data tif_dropped /\ r_is2d tif_dropped = false /\ grid_size (r_rows tif_dropped) (r_cols tif_dropped) /\
  header_shows (tif_header (of_int (-9))) (r_cols tif_dropped) (r_rows tif_dropped) (of_int 0) (of_int 3) (of_int 10) (of_int (-9)) /\
  asks_nothing [] /\ available false RDT_Int32 /\ cells_of_type RDT_Int32 tif_dropped /\ r_data tif_dropped = Some [VI 5; VI 7; VI 8] /\
  files_of (OutputFileByGdal tif_os false false RDT_Int32 no_order yes yes (tif_header (of_int (-9))) [] tif_dropped (str "m.tif")) =
    Some (true, [(str "/d/m.tif", [VI 5; VI (-9); VI 7; VI 8])]).
Proof.
  split; [right; eexists; apply tif_compact|]. split; [reflexivity|]. split; [apply tif_grid|]. split; [apply tif_header_shows|]. split; [reflexivity|].
  split; [split; [discriminate|intros [A|A]; discriminate]|]. split; [exact tif_cells|]. split; vm_compute; reflexivity.
Qed.

(** Several layers: a file for each, numbered from 1. *)
Theorem C43_layers : forall o g35 g37 s ord made moved h opts (r : raster num) filename x y cs nd,
  holds_data r -> r_is2d r = true -> grid_size (r_rows r) (r_cols r) -> header_shows h (r_cols r) (r_rows r) x y cs nd ->
  asks_nothing opts \/ asks opts s -> available g35 s -> s <> RDT_Int8 -> cells_of_type s r ->
  GetPathFromFullName o (GetAbsolutePath o filename) <> [] -> (forall name, made name = true) -> (forall name, moved name = true) ->
  exists files, OutputFileByGdal o g35 g37 s ord made moved h opts r filename = Ok (true, files) /\ Z.of_nat (length files) = r_nlyrs r /\
    forall k, layer_ok r k -> exists f vs,
      nth_error files (Z.to_nat (k - 1)) = Some (AppendCoreFileName o (GetAbsolutePath o filename) (itoa k) "_", f) /\
      band_type f s /\ f_nodata f = Some nd /\ file_shows f (r_rows r) (r_cols r) vs /\ layer_values r k vs.
Proof.
  intros o g35 g37 s ord made moved h opts r filename x y cs nd HD D G HS AO AV N8 CT P MA MO. pose proof G as (_ & GC & _).
  assert (W : forall k vs, layer_ok r k -> layer_values r k vs -> exists f, WriteSingleGeotiff g35 g37 s (ord (layer_name o filename k)) (made (layer_name o filename k)) (moved (layer_name o filename k)) h opts (Some vs) = Ok (Some f) /\
    band_type f s /\ f_nodata f = Some nd /\ f_srs f = projection opts /\ file_shows f (r_rows r) (r_cols r) vs).
  { intros k vs LO V. rewrite MA, MO. apply (C46_same g35 g37 s _ h opts _ _ x y cs nd vs HS G AO AV N8 (values_of_type s r k vs GC CT LO V) (proj1 V)). }
  destruct (output_layers o g35 g37 s ord made moved h opts r filename x y cs nd HD G HS D P) as (files & E & L & A).
  { intros k vs LO V. destruct (W k vs LO V) as (f & F & _). exists f. exact F. }
  exists files. split; [exact E|]. split; [exact L|]. intros k LO. destruct (A k LO) as (vs & f & V & N & WF). destruct (W k vs LO V) as (f' & WF' & B & ND & _ & S).
  assert (f' = f) by congruence. subst f'. exists f, vs. auto.
Qed.
Print Assumptions C43_layers.

Example C43_layers_ex : holds_data tif_two /\ r_is2d tif_two = true /\ GetPathFromFullName tif_os (GetAbsolutePath tif_os (str "m.tif")) <> [] /\
  files_of (OutputFileByGdal tif_os false false RDT_Int32 no_order yes yes (tif_header (of_int (-9))) [] tif_two (str "m.tif")) =
    Some (true, [(str "/d/m_1.tif", [VI 5; VI 6; VI (-9); VI 8]); (str "/d/m_2.tif", [VI 50; VI 60; VI 70; VI 80])]).
Proof. split; [left; apply tif_full_two|]. split; [reflexivity|]. split; [vm_compute; discriminate|]. vm_compute. reflexivity. Qed.

(** With another type asked for, the values converted are those GetValue returns. *)
Theorem C43_converted : forall o g35 g37 s ord made moved h opts (r : raster num) filename x y cs nd,
  holds_data r -> r_is2d r = false -> grid_size (r_rows r) (r_cols r) -> header_shows h (r_cols r) (r_rows r) x y cs nd ->
  exists vs, layer_values r 1 vs /\ forall f,
    WriteSingleGeotiff g35 g37 s (ord (GetAbsolutePath o filename)) (made (GetAbsolutePath o filename)) (moved (GetAbsolutePath o filename)) h opts (Some vs) = Ok f ->
    OutputFileByGdal o g35 g37 s ord made moved h opts r filename =
    Ok (match f with Some _ => true | None => false end, match f with Some g => [(GetAbsolutePath o filename, g)] | None => [] end).
Proof.
  intros o g35 g37 s ord made moved h opts r filename x y cs nd HD D G HS.
  destruct (output_one o g35 g37 s ord made moved h opts r filename x y cs nd HD G HS D) as (vs & V & E).
  exists vs. split; [exact V|]. intros f W. rewrite E, W. cbn [obind]. destruct f; reflexivity.
Qed.
Print Assumptions C43_converted.

Example C43_converted_ex :
  files_of (OutputFileByGdal tif_os false false RDT_Int32 (fun _ => [3; 1; 0; 2]%nat) yes yes (tif_header (of_int (-9))) (as_type "UINT8") tif_dropped (str "m.tif")) =
    Some (true, [(str "/d/m.tif", [VI 5; VI 255; VI 7; VI 8])]).
Proof. vm_compute. reflexivity. Qed.

(** A raster all of whose cells were dropped: one layer is not written; several
    layers are undefined behaviour. *)
Theorem C43_emptied_refuted : forall o g35 g37 s ord made moved h opts (r : raster num) filename x y cs nd,
  emptied r -> grid_size (r_rows r) (r_cols r) -> header_shows h (r_cols r) (r_rows r) x y cs nd -> asks_nothing opts -> s <> RDT_Unknown ->
  GetPathFromFullName o (GetAbsolutePath o filename) <> [] ->
  OutputFileByGdal o g35 g37 s ord made moved h opts r filename = if r_is2d r then UB else Ok (false, []).
Proof.
  intros o g35 g37 s ord made moved h opts r filename x y cs nd EM G HS AO U P. destruct EM as (RR & RC & NL & NC & CA & PO & PI & DA).
  destruct (sizes_read h r x y cs nd G HS) as [E1 E2]. destruct (size_facts (r_cols r) (r_rows r) G) as (_ & _ & _ & _ & _ & IM).
  unfold OutputFileByGdal. rewrite PO, PI. cbn [isnull orb].
  destruct (at_get h K_NROWS) as [d1| |]; cbn [obind] in E1 |- *; try discriminate. rewrite E1. cbn [obind].
  destruct (at_get h K_NCOLS) as [d2| |]; cbn [obind] in E2 |- *; try discriminate. rewrite E2. cbn [obind].
  destruct (r_is2d r) eqn:D.
  - destruct (GetPathFromFullName o (GetAbsolutePath o filename)); [congruence|]. replace (r_nlyrs r) with (1 + (r_nlyrs r - 1)) by lia. rewrite zseq_app by lia. rewrite ofold_app.
    change (zseq 1) with [0]. cbn [ofold negb]. rewrite IM. cbn [obind]. unfold layer_buffer at 1.
    assert (N1 : 1 <= r_rows r * r_cols r) by nia. replace (zseq (r_rows r * r_cols r)) with (0 :: map (fun k => 1 + k) (zseq (r_rows r * r_cols r - 1))).
    2:{ replace (r_rows r * r_cols r) with (1 + (r_rows r * r_cols r - 1)) at 2 by lia. rewrite zseq_app by lia. reflexivity. }
    cbn [ofold]. unfold read_cell. rewrite D, DA. cbn [deref obind]. reflexivity.
  - destruct DA as [_ DA]. rewrite DA. cbn [obind]. rewrite (write_eq g35 g37 s _ h opts _ _ x y cs nd HS G _ _ None _ (asks_no_type opts AO)).
    rewrite output_same; [|exact U|left; reflexivity]. cbn [obind option_map]. destruct (negb (made (GetAbsolutePath o filename)) || _); reflexivity.
Qed.
Print Assumptions C43_emptied_refuted.

Definition tif_nothing : raster num :=
  let r := FromArray (Some [VI (-9); VI (-9); VI (-9); VI (-9)]) 2 2 (VI (-9)) (VI 0) 10%Q 0%Q 3%Q in
  match SetCalcPositions num_eq [] r with Ok (r', _) => r' | _ => r end.
Example C43_emptied_ex : emptied tif_nothing /\
  files_of (OutputFileByGdal tif_os false false RDT_Int32 no_order yes yes (tif_header (of_int (-9))) [] tif_nothing (str "m.tif")) = Some (false, []).
Proof. split; [|vm_compute; reflexivity]. vm_compute. repeat split; try discriminate; reflexivity. Qed.

(** * C47: the lower left corner *)
Lemma written_geo g35 g37 s ord made moved h opts cols rows x y cs nd vs f : header_shows h cols rows x y cs nd -> grid_size rows cols ->
  WriteSingleGeotiff g35 g37 s ord made moved h opts vs = Ok (Some f) -> f_rows f = rows /\ f_cols f = cols /\ f_geo f = geo rows x y cs.
Proof.
  intros HS G. rewrite (write_eq g35 g37 s ord h opts cols rows x y cs nd HS G made moved vs _ eq_refl).
  destruct (output_array _ _ _ _ _ _ _ _) as [[[[[t a] nd'] sgn]|]| |]; cbn [obind]; try discriminate.
  destruct (negb made || _); try discriminate. destruct a as [a|]; try discriminate. destruct (transfer _ a) as [c| |]; cbn [obind]; try discriminate. destruct (negb moved); try discriminate.
  intros E. injection E as <-. auto.
Qed.

Lemma read_geo g35 g37 s f minmax header v0 t0 p0 out cols rows x y cs : f_rows f = rows /\ f_cols f = cols /\ f_geo f = geo rows x y cs -> grid_size rows cols ->
  ReadRasterFileByGdal g35 g37 s (Some f) minmax true header v0 t0 p0 = Ok out -> g_ok out = true ->
  exists nd', header_read header (g_header out) cols rows (read_x (geo rows x y cs)) (read_y (geo rows x y cs) rows) cs nd' /\ (forall nd, f_nodata f = Some nd -> nd' = nd).
Proof.
  intros (R & C & GE) G RD OKF. destruct (read_eq g35 g37 s f minmax true header v0 t0 p0) as (hd & HD & E); [rewrite R, C; exact G|].
  rewrite E in RD. destruct (read_cells _ _ _ _ _ _ _) as [[[vs t]|]| |]; cbn [obind] in RD; try discriminate; injection RD as <-; cbn [g_ok] in OKF; [|discriminate].
  cbn [g_header]. eexists. split; [rewrite GE, R, C in HD; apply HD|]. intros nd ->. reflexivity.
Qed.

(** Corner and half a cell are multiples of one power of two, and their number is
    not too large: the corner comes back exactly. *)
Theorem C47_exact : forall g35 g37 s s' ord made moved h opts cols rows x y cs nd vs f minmax header v0 t0 p0 out e a b c,
  header_shows h cols rows x y cs nd -> grid_size rows cols ->
  -1000 <= e <= 800 -> multiple e a x -> multiple e b y -> multiple e (2 * c) cs ->
  Z.abs a + Z.abs c <= 2 ^ 53 -> Z.abs b + 2 * rows * Z.abs c <= 2 ^ 53 ->
  WriteSingleGeotiff g35 g37 s ord made moved h opts vs = Ok (Some f) ->
  ReadRasterFileByGdal g35 g37 s' (Some f) minmax true header v0 t0 p0 = Ok out -> g_ok out = true ->
  exists x' y' nd', header_read header (g_header out) cols rows x' y' cs nd' /\ multiple e a x' /\ multiple e b y'.
Proof.
  intros g35 g37 s s' ord made moved h opts cols rows x y cs nd vs f minmax header v0 t0 p0 out e a b c HS G E X Y C MA MB W RD OKF.
  pose proof (written_geo _ _ _ _ _ _ _ _ _ _ _ _ _ _ _ _ HS G W) as GE. pose proof G as (GR & GC & GN).
  assert (RM : 0 < rows <= INT_MAX) by nia.
  destruct (read_geo _ _ _ _ _ _ _ _ _ _ _ _ _ _ _ GE G RD OKF) as (nd' & HR & _).
  eexists _, _, nd'. split; [exact HR|]. split.
  - apply (x_back x y cs rows e a c); assumption.
  - apply (y_back x y cs rows e b c); assumption.
Qed.
Print Assumptions C47_exact.

(** Corner (0, 3), cells of 10 units, two rows: half a cell is 5 units. *)
Example C47_exact_ex : multiple 0 0 (of_int 0) /\ multiple 0 3 (of_int 3) /\ multiple 0 (2 * 5) (of_int 10) /\
  Z.abs 0 + Z.abs 5 <= 2 ^ 53 /\ Z.abs 3 + 2 * 2 * Z.abs 5 <= 2 ^ 53 /\
  match file_in (WriteSingleGeotiff false false RDT_Int32 [] true true (tif_header (of_int (-9))) [] (Some [VI 5; VI (-9); VI 7; VI 8])) with
  | Some f => FloatEqual (gt0 (f_geo f)) (of_int (-5)) && FloatEqual (gt3 (f_geo f)) (of_int 18) &&
      match ReadRasterFileByGdal false false RDT_Int32 (Some f) None true [] None RDT_Unknown [] with
      | Ok g => g_ok g && match lookup (g_header g) (str "XLLCENTER"), lookup (g_header g) (str "YLLCENTER") with
                | Some a, Some b => FloatEqual a (of_int 0) && FloatEqual b (of_int 3) | _, _ => false end
      | _ => false end
  | None => false end = true.
Proof.
  assert (M : forall z, Z.abs z <= 2 ^ 53 -> multiple 0 z (of_int z)) by (intros z B; exact (grid_int z B)).
  split; [apply M; lia|]. split; [apply M; lia|]. split; [apply (M 10); lia|]. split; [lia|]. split; [lia|]. vm_compute. reflexivity.
Qed.

(** Any other: up to rounding. *)
Theorem C47_close : forall g35 g37 s s' ord made moved h opts cols rows x y cs nd vs f minmax header v0 t0 p0 out (K : R),
  header_shows h cols rows x y cs nd -> grid_size rows cols ->
  is_finite x = true -> is_finite y = true -> is_finite cs = true ->
  (1 <= K <= bpow radix2 990)%R -> (Rabs (B2R x) + Rabs (B2R cs) <= K)%R -> (Rabs (B2R y) + IZR rows * Rabs (B2R cs) <= K)%R ->
  WriteSingleGeotiff g35 g37 s ord made moved h opts vs = Ok (Some f) ->
  ReadRasterFileByGdal g35 g37 s' (Some f) minmax true header v0 t0 p0 = Ok out -> g_ok out = true ->
  exists x' y' nd', header_read header (g_header out) cols rows x' y' cs nd' /\ is_finite x' = true /\ is_finite y' = true /\
    (Rabs (B2R x' - B2R x) <= bpow radix2 (-50) * K)%R /\ (Rabs (B2R y' - B2R y) <= bpow radix2 (-50) * K)%R.
Proof.
  intros g35 g37 s s' ord made moved h opts cols rows x y cs nd vs f minmax header v0 t0 p0 out K HS G FX FY FC [K1 KB] BX BY W RD OKF.
  pose proof (written_geo _ _ _ _ _ _ _ _ _ _ _ _ _ _ _ _ HS G W) as GE. pose proof G as (GR & GC & GN).
  assert (RM : 0 < rows <= INT_MAX) by nia.
  destruct (read_geo _ _ _ _ _ _ _ _ _ _ _ _ _ _ _ GE G RD OKF) as (nd' & HR & _).
  assert (KB' : (16 * K <= big)%R).
  { unfold big. replace 1000 with (10 + 990) by lia. rewrite bpow_plus. change (bpow radix2 10) with 1024%R. pose proof (bpow_ge_0 radix2 990). lra. }
  destruct grid_half as [FH VH]. change (bpow radix2 (-1)) with (/ 2)%R in VH.
  destruct (rows_half rows RM) as [FR VR]. change (bpow radix2 (-1)) with (/ 2)%R in VR.
  assert (RR : (1 <= IZR rows)%R) by (apply (IZR_le 1); lia). rewrite minus_IZR, mult_IZR in VR.
  pose proof (Rabs_pos (B2R x)). pose proof (Rabs_pos (B2R y)). pose proof (Rabs_pos (B2R cs)) as CP. pose proof u_pos as UP.
  assert (UE : (8 * u = bpow radix2 (-50))%R). { unfold u. change (/ IZR (2 ^ 53))%R with (bpow radix2 (-53)). change 8%R with (bpow radix2 3). rewrite <- bpow_plus. reflexivity. }
  assert (ET : (0 <= eta <= u)%R).
  { split; [apply bpow_ge_0|]. unfold eta, u. change (/ IZR (2 ^ 53))%R with (bpow radix2 (-53)). apply bpow_le. lia. }
  assert (UK : (u <= 1)%R). { unfold u. change (/ IZR (2 ^ 53))%R with (bpow radix2 (-53)). apply (bpow_le radix2 (-53) 0). lia. }
  assert (PX : (Rabs (B2R half * B2R cs) <= K)%R). { rewrite Rabs_mult, VH, (Rabs_pos_eq (1 * / 2)) by lra. lra. }
  assert (PY : (Rabs (B2R (fsub (of_int rows) half) * B2R cs) <= K)%R).
  { rewrite Rabs_mult, VR, Rabs_pos_eq by lra. assert ((2 * IZR rows - 1) * / 2 * Rabs (B2R cs) <= IZR rows * Rabs (B2R cs))%R by (apply Rmult_le_compat_r; lra). lra. }
  assert (MX : (Rabs (B2R (fmul half cs)) <= Rabs (B2R half * B2R cs) + (u * Rabs (B2R half * B2R cs) + eta))%R).
  { destruct (near_mul half cs FH FC ltac:(lra)) as [_ N]. exact (abs_near _ _ _ N). }
  assert (MY : (Rabs (B2R (fmul (fsub (of_int rows) half) cs)) <= Rabs (B2R (fsub (of_int rows) half) * B2R cs) + (u * Rabs (B2R (fsub (of_int rows) half) * B2R cs) + eta))%R).
  { destruct (near_mul _ cs FR FC ltac:(lra)) as [_ N]. exact (abs_near _ _ _ N). }
  assert (US : (u <= / IZR (2 ^ 50))%R) by (unfold u; apply Rinv_le; [apply IZR_lt; lia|apply IZR_le; lia]).
  assert (PX' : (Rabs (B2R (fmul half cs)) <= 3 / 2 * Rabs (B2R half * B2R cs) + u)%R).
  { pose proof (Rabs_pos (B2R half * B2R cs)) as Q. assert (u * Rabs (B2R half * B2R cs) <= / 2 * Rabs (B2R half * B2R cs))%R by (apply Rmult_le_compat_r; [exact Q|]; change (2 ^ 50) with 1125899906842624 in US; lra). lra. }
  assert (PY' : (Rabs (B2R (fmul (fsub (of_int rows) half) cs)) <= 3 / 2 * Rabs (B2R (fsub (of_int rows) half) * B2R cs) + u)%R).
  { pose proof (Rabs_pos (B2R (fsub (of_int rows) half) * B2R cs)) as Q. assert (u * Rabs (B2R (fsub (of_int rows) half) * B2R cs) <= / 2 * Rabs (B2R (fsub (of_int rows) half) * B2R cs))%R by (apply Rmult_le_compat_r; [exact Q|]; change (2 ^ 50) with 1125899906842624 in US; lra). lra. }
  assert (EX : (Rabs (B2R half * B2R cs) = / 2 * Rabs (B2R cs))%R) by (rewrite Rabs_mult, VH, (Rabs_pos_eq (1 * / 2)) by lra; lra).
  assert (EY : (Rabs (B2R (fsub (of_int rows) half) * B2R cs) <= IZR rows * Rabs (B2R cs))%R).
  { rewrite Rabs_mult, VR, Rabs_pos_eq by lra. apply Rmult_le_compat_r; lra. }
  assert (U8 : (u <= / 8)%R) by (change (2 ^ 50) with 1125899906842624 in US; lra).
  eexists _, _, nd'. split; [exact HR|].
  assert (NX : near (read_x (geo rows x y cs)) (B2R x) (4 * u * (2 * K))).
  { unfold read_x, geo. cbn [gt0 gt1]. destruct (near_mul half cs FH FC ltac:(lra)) as [FP _]. apply back_and_there; auto; lra. }
  assert (NY : near (read_y (geo rows x y cs) rows) (B2R y) (4 * u * (2 * K))).
  { unfold read_y, geo. cbn [gt3 gt5]. destruct (prod_opp (fsub (of_int rows) half) cs FR FC ltac:(lra)) as (F1 & F2 & E).
    apply there_and_back; auto; lra. }
  destruct NX as [F1 N1], NY as [F2 N2]. split; [exact F1|]. split; [exact F2|]. rewrite <- UE. split; lra.
Qed.
Print Assumptions C47_close.

Example C47_close_ex : is_finite (fdiv (of_int 1) (of_int 10)) = true /\ (Rabs (B2R (of_int 3)) + IZR 2 * Rabs (B2R (of_int 10)) <= 100)%R.
Proof.
  split; [vm_compute; reflexivity|]. destruct (of_int_exact 3 ltac:(lia)) as [_ ->]. destruct (of_int_exact 10 ltac:(lia)) as [_ ->]. rewrite !Rabs_pos_eq; lra.
Qed.

(** * C81: reading back *)

(** The file is read into cells of its type: what it shows. *)
Theorem C81_read : forall g35 g37 t f rows cols ws minmax header v0 t0 p0,
  grid_size rows cols -> file_shows f rows cols ws -> band_type f t -> Forall (of_type t) ws -> Z.of_nat (length ws) = rows * cols ->
  available g35 t -> (f_type f = GDT_Int8 -> g37 = true) -> (f_type f = GDT_Byte -> minmax_ok f minmax) ->
  exists out, ReadRasterFileByGdal g35 g37 t (Some f) minmax true header v0 t0 p0 = Ok out /\
    g_ok out = true /\ g_values out = Some ws /\ g_srs out = f_srs f /\ (f_type f <> GDT_Byte -> g_intype out = t) /\
    lookup (g_header out) (str "NROWS") = Some (of_int rows) /\ lookup (g_header out) (str "NCOLS") = Some (of_int cols) /\
    lookup (g_header out) (str "CELLSIZE") = Some (gt1 (f_geo f)) /\
    lookup (g_header out) (str "NODATA_VALUE") = Some (match f_nodata f with Some nd => nd | None => DefaultNoDataByType (g_intype out) end).
Proof.
  intros g35 g37 t f rows cols ws minmax header v0 t0 p0 G FS BT FW LW AV A8 MM. pose proof FS as (R & C & _).
  destruct (read_eq g35 g37 t f minmax true header v0 t0 p0) as (hd & HD & E); [rewrite R, C; exact G|]. rewrite R, C in E.
  assert (Q : exists t', read_cells g35 g37 t f minmax true (rows * cols) = Ok (Some (ws, t')) /\ (f_type f <> GDT_Byte -> t' = t)).
  { assert (D : {f_type f = GDT_Byte} + {f_type f <> GDT_Byte}) by decide equality. destruct D as [D|D].
    - destruct (read_bytes g35 g37 t f rows cols ws FS BT FW LW minmax D (MM D)) as [t' T]. exists t'. split; [exact T|tauto].
    - exists t. split; [apply read_plain; auto|reflexivity]. }
  destruct Q as (t' & Q & T). rewrite Q in E. cbn [obind] in E. eexists. split; [exact E|]. cbn [g_ok g_values g_srs g_intype g_header].
  repeat (split; [first [reflexivity|assumption]|]). destruct (HD (match f_nodata f with Some nd => nd | None => DefaultNoDataByType t' end)) as ((A1 & A2 & _ & _ & A5 & A6) & _).
  rewrite C in A1. rewrite R in A2. auto.
Qed.
Print Assumptions C81_read.

Lemma no_int8 g35 g37 s ord made moved h opts vs f : WriteSingleGeotiff g35 g37 s ord made moved h opts vs = Ok (Some f) -> f_type f = GDT_Int8 -> g37 = true.
Proof.
  intros W E. destruct g37; [reflexivity|exfalso]. unfold WriteSingleGeotiff in W.
  repeat match type of W with (obind ?m _) = _ => destruct m; cbn [obind] in W; try discriminate end.
  match type of W with match ?m with _ => _ end = _ => destruct m as [[[[t arr] nd'] sgn]|] end; try discriminate. destruct (negb made || _ || _ || _); try discriminate. destruct arr; try discriminate.
  repeat match type of W with (obind ?m _) = _ => destruct m; cbn [obind] in W; try discriminate end. destruct (negb moved); try discriminate.
  repeat match type of W with (obind ?m _) = _ => destruct m; cbn [obind] in W; try discriminate end. injection W as <-. cbn [f_type] in E. destruct t, g35; discriminate.
Qed.

(** Written as they are and read as what they were. *)
Theorem C81_round_trip : forall g35 g37 s ord h opts cols rows x y cs nd vs,
  header_shows h cols rows x y cs nd -> grid_size rows cols -> asks_nothing opts \/ asks opts s -> available g35 s -> s <> RDT_Int8 ->
  Forall (of_type s) vs -> Z.of_nat (length vs) = rows * cols ->
  exists f, WriteSingleGeotiff g35 g37 s ord true true h opts (Some vs) = Ok (Some f) /\
    forall minmax header v0 t0 p0, (f_type f = GDT_Byte -> minmax_ok f minmax) ->
      exists out, ReadRasterFileByGdal g35 g37 s (Some f) minmax true header v0 t0 p0 = Ok out /\
        g_ok out = true /\ g_values out = Some vs /\ g_srs out = projection opts /\ (s <> RDT_UInt8 -> g_intype out = s) /\
        lookup (g_header out) (str "NODATA_VALUE") = Some nd /\ lookup (g_header out) (str "CELLSIZE") = Some cs.
Proof.
  intros g35 g37 s ord h opts cols rows x y cs nd vs HS G AO AV N8 FV LV.
  destruct (C46_same g35 g37 s ord h opts cols rows x y cs nd vs HS G AO AV N8 FV LV) as (f & W & BT & ND & SR & FS).
  exists f. split; [exact W|]. intros minmax header v0 t0 p0 MM.
  destruct (C81_read g35 g37 s f rows cols vs minmax header v0 t0 p0 G FS BT FV LV AV (no_int8 _ _ _ _ _ _ _ _ _ _ W) MM) as (out & E & A & B & C & D & _ & _ & CE & NO).
  exists out. split; [exact E|]. rewrite C, SR. rewrite ND in NO. destruct (written_geo _ _ _ _ _ _ _ _ _ _ _ _ _ _ _ _ HS G W) as (_ & _ & GE). rewrite GE in CE.
  repeat (split; [assumption || reflexivity|]). split; [|split; assumption].
  intros NU. apply D. intros TB. unfold band_type in BT. rewrite TB in BT. destruct s; try (destruct BT; discriminate); congruence.
Qed.
Print Assumptions C81_round_trip.

Example C81_round_trip_ex :
  found (ReadRasterFileByGdal false false RDT_Int32 (file_in (WriteSingleGeotiff false false RDT_Int32 [] true true (tif_header (of_int (-9))) [] (Some [VI 5; VI (-9); VI 7; VI 8]))) None true [] None RDT_Unknown [])
    = Some (true, Some [VI 5; VI (-9); VI 7; VI 8], RDT_Int32).
Proof. vm_compute. reflexivity. Qed.

(** Signed bytes, asked for by name. *)
Theorem C81_signed_bytes : forall g35 g37 ord h opts cols rows x y cs nd vs,
  header_shows h cols rows x y cs nd -> grid_size rows cols -> asks opts RDT_Int8 ->
  Forall (of_type RDT_Int8) vs -> Z.of_nat (length vs) = rows * cols -> schedule (rows * cols) ord -> ~ outside RDT_Int8 nd ->
  exists f, WriteSingleGeotiff g35 g37 RDT_Int8 ord true true h opts (Some vs) = Ok (Some f) /\
    forall minmax header v0 t0 p0, (f_type f = GDT_Byte -> minmax_ok f minmax) ->
      exists out, ReadRasterFileByGdal g35 g37 RDT_Int8 (Some f) minmax true header v0 t0 p0 = Ok out /\
        g_ok out = true /\ g_values out = Some vs /\ g_srs out = projection opts /\
        lookup (g_header out) (str "NODATA_VALUE") = Some nd.
Proof.
  intros g35 g37 ord h opts cols rows x y cs nd vs HS G AO FV LV SC NO.
  assert (K : integer_type RDT_Int8) by discriminate. assert (AV : available g35 RDT_Int8) by (split; [discriminate|intros [?|?]; discriminate]).
  destruct (C46_accepted g35 g37 RDT_Int8 RDT_Int8 ord h opts cols rows x y cs nd vs HS G AO K K AV ltac:(auto)) as (f & nd' & ws & W & BT & ND & _ & N2 & SR & FS & F2); auto.
  { intros (w & w' & A & _). discriminate. }
  { intros v I. right. exact (proj1 (Forall_forall _ _) FV v I). }
  assert (ws = vs). { clear - F2 NO. induction F2 as [|v w vs ws (_ & B & _) F2 IH]; [reflexivity|]. f_equal; [apply B; intros [_ X]; tauto|exact IH]. } subst ws. rewrite (N2 NO) in ND.
  exists f. split; [exact W|]. intros minmax header v0 t0 p0 MM.
  destruct (C81_read g35 g37 RDT_Int8 f rows cols vs minmax header v0 t0 p0 G FS BT FV LV AV (no_int8 _ _ _ _ _ _ _ _ _ _ W) MM) as (out & E & A & B & C & D & _ & _ & _ & NN).
  exists out. rewrite C, SR. rewrite ND in NN. auto.
Qed.
Print Assumptions C81_signed_bytes.

Example C81_signed_bytes_ex : ~ outside RDT_Int8 (of_int (-9)) /\
  found (ReadRasterFileByGdal false false RDT_Int8 (file_in (WriteSingleGeotiff false false RDT_Int8 [3; 1; 0; 2]%nat true true (tif_header (of_int (-9))) (as_type "INT8") (Some [VI 5; VI (-9); VI 7; VI 8]))) (Some (of_int 5, of_int 8)) true [] None RDT_Unknown [])
    = Some (true, Some [VI 5; VI (-9); VI 7; VI 8], RDT_Int8).
Proof. split; [intros [A|A]; vm_compute in A; discriminate|]. vm_compute. reflexivity. Qed.

(** A raster object of one layer, complete or compacted, comes back as the grid it
    stands for. *)
Theorem C81_object : forall o g35 g37 s ord made moved h opts (r : raster num) filename x y cs nd,
  holds_data r -> r_is2d r = false -> grid_size (r_rows r) (r_cols r) -> header_shows h (r_cols r) (r_rows r) x y cs nd ->
  asks_nothing opts \/ asks opts s -> available g35 s -> s <> RDT_Int8 -> cells_of_type s r ->
  made (GetAbsolutePath o filename) = true -> moved (GetAbsolutePath o filename) = true ->
  exists f, OutputFileByGdal o g35 g37 s ord made moved h opts r filename = Ok (true, [(GetAbsolutePath o filename, f)]) /\
    forall minmax header v0 t0 p0, (f_type f = GDT_Byte -> minmax_ok f minmax) ->
      exists out vs, ReadRasterFileByGdal g35 g37 s (Some f) minmax true header v0 t0 p0 = Ok out /\
        g_ok out = true /\ g_values out = Some vs /\ layer_values r 1 vs.
Proof.
  intros o g35 g37 s ord made moved h opts r filename x y cs nd HD D G HS AO AV N8 CT MA MO.
  destruct (C43_one_layer o g35 g37 s ord made moved h opts r filename x y cs nd HD D G HS AO AV N8 CT MA MO) as (f & vs & E & BT & _ & _ & FS & V).
  exists f. split; [exact E|]. intros minmax header v0 t0 p0 MM.
  assert (LO : layer_ok r 1) by (pose proof (nlyrs_pos r HD); unfold layer_ok; lia). pose proof G as (_ & GC & _).
  destruct (C81_read g35 g37 s f _ _ vs minmax header v0 t0 p0 G FS BT (values_of_type s r 1 vs GC CT LO V) (proj1 V) AV) as (out & R & A & B & _); [|exact MM|exists out, vs; auto].
  destruct (output_one o g35 g37 s ord made moved h opts r filename x y cs nd HD G HS D) as (vs' & _ & E'). rewrite E in E'.
  destruct (WriteSingleGeotiff g35 g37 s (ord (GetAbsolutePath o filename)) (made (GetAbsolutePath o filename)) (moved (GetAbsolutePath o filename)) h opts (Some vs')) as [[f'|]| |] eqn:W; cbn [obind] in E'; try discriminate.
  injection E' as <-. exact (no_int8 _ _ _ _ _ _ _ _ _ _ W).
Qed.
Print Assumptions C81_object.

(** A byte file without a valid cell: the reader uses two uninitialised numbers. *)
Theorem C81_bytes_refuted : forall g35 g37 s f moved header v0 t0 p0,
  grid_size (f_rows f) (f_cols f) -> f_type f = GDT_Byte ->
  ReadRasterFileByGdal g35 g37 s (Some f) None moved header v0 t0 p0 = UB.
Proof.
  intros g35 g37 s f moved header v0 t0 p0 G TB. destruct (read_eq g35 g37 s f None moved header v0 t0 p0 G) as (hd & _ & ->). unfold read_cells. rewrite TB. reflexivity.
Qed.
Print Assumptions C81_bytes_refuted.

(** The file of a byte raster without a valid cell. *)
Example C81_bytes_ex :
  is_ub (ReadRasterFileByGdal true true RDT_UInt8 (file_in (WriteSingleGeotiff true true RDT_UInt8 [] true true (tif_header (of_int 255)) [] (Some [VI 255; VI 255; VI 255; VI 255]))) None true [] None RDT_Unknown []) = true.
Proof. vm_compute. reflexivity. Qed.

(** Unsigned bytes up to 127 with a negative NoData value: the type found is the
    signed one. *)
Theorem C81_type_refuted : forall g35 g37 f rows cols ws minmax header v0 t0 p0 nd out,
  grid_size rows cols -> file_shows f rows cols ws -> band_type f RDT_UInt8 -> Forall (of_type RDT_UInt8) ws -> Z.of_nat (length ws) = rows * cols ->
  minmax_ok f minmax -> (forall z, In (VI z) ws -> z <= 127) -> f_nodata f = Some nd -> flt nd f64_zero = true ->
  ReadRasterFileByGdal g35 g37 RDT_UInt8 (Some f) minmax true header v0 t0 p0 = Ok out -> g_intype out = RDT_Int8.
Proof.
  intros g35 g37 f rows cols ws minmax header v0 t0 p0 nd out G FS BT FW LW MM SM ND NN RD. pose proof FS as (R & C & _ & S). destruct BT as [TB SG].
  destruct (read_eq g35 g37 RDT_UInt8 f minmax true header v0 t0 p0) as (hd & _ & E); [rewrite R, C; exact G|]. rewrite R, C in E.
  destruct (read_bytes g35 g37 RDT_UInt8 f rows cols ws FS (conj TB SG) FW LW minmax TB MM) as [t' T].
  rewrite T in E. cbn [obind] in E. rewrite RD in E. injection E as ->. cbn [g_intype].
  apply (read_type g35 g37 RDT_UInt8 f rows cols ws FS (conj TB SG) FW minmax (ws, t') TB SG MM); [|exists nd; auto|exact T].
  intros i z Q. rewrite S in Q. apply SM. exact (nth_error_In _ _ Q).
Qed.
Print Assumptions C81_type_refuted.

Example C81_type_ex : flt (of_int (-9)) f64_zero = true /\
  found (ReadRasterFileByGdal true true RDT_UInt8 (file_in (WriteSingleGeotiff true true RDT_UInt8 [] true true (tif_header (of_int (-9))) [] (Some [VI 5; VI 6; VI 7; VI 127]))) (Some (of_int 5, of_int 127)) true [] None RDT_Unknown [])
    = Some (true, Some [VI 5; VI 6; VI 7; VI 127], RDT_Int8).
Proof. split; vm_compute; reflexivity. Qed.
