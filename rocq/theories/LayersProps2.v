(** Concrete cases of C93-C98. *)
From Coq Require Import ZArith Reals Lia Lra Ascii String List Bool Permutation.
From Flocq Require Import Core BinarySingleNaN.
From Verif Require Import Base StrModel StrSpec MapModel MapProofs BasicModel FloatModel FloatProofs TypeModel CoordFloatModel CoordFloatSpec CoordFloatProofs
  FsModel FsSpec FsProofs FsProps RasterModel RasterSpec RasterProofs CopyModel NumModel AscModel AscSpec MongoModel CellModel GridfsModel GdalModel LayersModel LayersSpec LayersProofs LayersProofs4 LayersProofs6 LayersProps.
Import ListNotations.
Open Scope Z_scope.

(** A reader that finds layers under names. *)
Definition put_header (h : smap f64) (l : flayer) : smap f64 :=
  let g := fl_geo l in
  UpdateMap (UpdateMap (UpdateMap (UpdateMap (UpdateMap (UpdateMap (UpdateMap (UpdateMap h K_NCOLS (of_int (fg_cols g))) K_NROWS (of_int (fg_rows g)))
    K_XLL (fg_xll g)) K_YLL (fg_yll g)) K_CELLSIZE (fg_cs g)) K_NODATA (fl_nodata l)) K_LAYERS (of_int 1)) K_CELLSNUM (of_int (fg_rows g * fg_cols g)).
Definition shelf (files : list (bytes * flayer)) (name : bytes) (h : smap f64) : outcome layer_read :=
  match find (fun e => beqb (fst e) name) files with
  | Some e => Ok (true, put_header h (snd e), Some (fl_vals (snd e)))
  | None => Ok (false, h, None)
  end.
Lemma shelf_gives files name h e : find (fun e => beqb (fst e) name) files = Some e -> gives (shelf files name h) (snd e).
Proof.
  intros F. unfold shelf. rewrite F. eexists. split; [reflexivity|]. unfold header_of, put_header. cbv zeta. rewrite !lookup_UpdateMap.
  repeat match goal with |- context [beqb ?a ?b] => let v := eval vm_compute in (beqb a b) in change (beqb a b) with v end. cbv iota. repeat split; reflexivity.
Qed.

(** Three files: two on one grid of 2 x 2 cells of size 2, the third one cell of size 4. *)
Definition n1 := str "/d/dem_1.asc". Definition n2 := str "/d/dem_2.asc". Definition n3 := str "/d/dem_3.asc".
Definition e0 := mkFlayer (mkFgeo 2 2 (of_int 1) (of_int 1) (of_int 2)) (of_int (-9999)) [VI 1; VI 2; VI (-9999); VI 4].
Definition e1 := mkFlayer (mkFgeo 2 2 (of_int 1) (of_int 1) (of_int 2)) (of_int (-1)) [VI 10; VI (-1); VI 30; VI 40].
Definition e2 := mkFlayer (mkFgeo 1 1 (of_int 2) (of_int 2) (of_int 4)) (of_int (-9999)) [VI 7].
Definition files3 := [(n1, e0); (n2, e1); (n3, e2)].

Lemma sane_int rows cols x y c : 0 <= rows <= INT_MAX -> 0 <= cols <= INT_MAX -> Z.abs x <= 1000 -> Z.abs y <= 1000 -> 0 < c <= 1000 -> sane (mkFgeo rows cols (of_int x) (of_int y) (of_int c)).
Proof.
  intros R K X Y C. unfold sane. cbn [fg_xll fg_yll fg_cs fg_rows fg_cols].
  destruct (of_int_exact x ltac:(lia)) as [F1 V1]. destruct (of_int_exact y ltac:(lia)) as [F2 V2]. destruct (of_int_exact c ltac:(lia)) as [F3 V3].
  rewrite V1, V2, V3, <- !abs_IZR, <- !mult_IZR. split; [exact F1|]. split; [exact F2|]. split; [exact F3|]. split; [split|split; [|split; [|lia]]].
  - apply Rle_trans with (bpow radix2 0); [apply bpow_le; lia|]. change (bpow radix2 0) with 1%R. apply IZR_le. lia.
  - apply Rle_trans with (bpow radix2 40); [|apply bpow_le; lia]. change (bpow radix2 40) with (IZR (2 ^ 40)). apply IZR_le. lia.
  - apply IZR_le. lia.
  - apply IZR_le. lia.
Qed.
Lemma proper_int rows cols x y c nd vals : grid_size rows cols -> rows <= 1000 -> cols <= 1000 -> Z.abs x <= 1000 -> Z.abs y <= 1000 -> 0 < c <= 1000 ->
  Z.of_nat (List.length vals) = rows * cols -> proper (mkFlayer (mkFgeo rows cols (of_int x) (of_int y) (of_int c)) nd vals).
Proof. intros (R & K & M) R1 K1 X Y C L. split; [split; [exact R|split; [exact K|exact M]]|]. split; [apply sane_int; unfold INT_MAX; lia|exact L]. Qed.
Lemma centre2 i j x y : fst (fCoordinate (fl_geo e0) i j) = of_int x -> snd (fCoordinate (fl_geo e0) i j) = of_int y -> fCoordinate (fl_geo e0) i j = (of_int x, of_int y).
Proof. intros <- <-. destruct (fCoordinate _ _ _); reflexivity. Qed.
Lemma c00 : fCoordinate (fl_geo e0) 0 0 = (of_int 1, of_int 3). Proof. apply centre2; apply B2SF_inj; vm_compute; reflexivity. Qed.
Lemma c01 : fCoordinate (fl_geo e0) 0 1 = (of_int 3, of_int 3). Proof. apply centre2; apply B2SF_inj; vm_compute; reflexivity. Qed.
Lemma c11 : fCoordinate (fl_geo e0) 1 1 = (of_int 3, of_int 1). Proof. apply centre2; apply B2SF_inj; vm_compute; reflexivity. Qed.

Lemma e0_cells i j v : file_value e0 i j v -> cells_equal v (VI (-9999)) = false -> i = 0 /\ j = 0 /\ v = VI 1 \/ i = 0 /\ j = 1 /\ v = VI 2 \/ i = 1 /\ j = 1 /\ v = VI 4.
Proof.
  intros (I & J & E) V. cbn [e0 fl_geo fg_rows fg_cols fl_vals] in I, J, E.
  assert (i = 0 /\ j = 0 \/ i = 0 /\ j = 1 \/ i = 1 /\ j = 0 \/ i = 1 /\ j = 1) as [[-> ->]|[[-> ->]|[[-> ->]|[-> ->]]]] by lia; cbn in E; injection E as <-; auto.
  vm_compute in V. discriminate.
Qed.
Lemma int_R z : Z.abs z <= 1000 -> is_finite (of_int z) = true /\ B2R (of_int z) = IZR z.
Proof. intros H. apply of_int_exact. lia. Qed.

Lemma e1_seen i j v : file_value e0 i j v -> forall w, file_value e1 i j w ->
  seen e1 (VI (-9999)) (fst (fCoordinate (fl_geo e0) i j)) (snd (fCoordinate (fl_geo e0) i j)) (if FloatEqual (as_double w) (of_int (-1)) then VI (-9999) else w).
Proof.
  intros (I & J & _) w FW. left. exists i, j, w.
  destruct (fcentre (fl_geo e0) i j ltac:(apply sane_int; unfold INT_MAX; lia) I J) as (WI & X & Y). auto.
Qed.
Lemma e2_inside x y : 2 <= x <= 3 -> 2 <= y <= 3 -> seen e2 (VI (-9999)) (of_int x) (of_int y) (VI 7).
Proof.
  intros X Y. left. exists 0, 0, (VI 7). unfold well_inside. cbn [e2 fl_geo fg_rows fg_cols fg_xll fg_yll fg_cs].
  destruct (int_R x ltac:(lia)) as [FX VX]. destruct (int_R y ltac:(lia)) as [FY VY]. destruct (int_R 2 ltac:(lia)) as [_ V2]. destruct (int_R 4 ltac:(lia)) as [_ V4]. rewrite VX, VY, V2, V4.
  assert ((2 <= IZR x <= 3)%R) by (split; apply IZR_le; lia). assert ((2 <= IZR y <= 3)%R) by (split; apply IZR_le; lia).
  split; [|split; [lra|split; [lra|split; [repeat split; lia|vm_compute; reflexivity]]]].
  split; [lia|]. split; [lia|]. split; [exact FX|]. split; [exact FY|]. change (1 - 0 - 1) with 0. split; apply Rabs_le; lra.
Qed.
Lemma e2_apart x y : x = 1 /\ y = 3 \/ x = 3 /\ y = 1 -> apart (fl_geo e2) (of_int x) (of_int y).
Proof.
  intros H. destruct (int_R x ltac:(lia)) as [FX VX]. destruct (int_R y ltac:(lia)) as [FY VY]. split; [exact FX|]. split; [exact FY|].
  cbn [e2 fl_geo fg_xll fg_yll]. destruct (int_R 2 ltac:(lia)) as [_ V2]. rewrite VX, VY, V2. destruct H as [[-> ->]|[-> ->]]; [left; lra|right; left; lra].
Qed.

Lemma three_readable : readable (fun _ => true) (shelf files3) RDT_Int32 n1 [n2; n3] e0 [e1; e2] (VI (-9999)).
Proof.
  split; [reflexivity|]. split; [discriminate|]. split; [apply (shelf_gives files3 n1 start (n1, e0)); reflexivity|].
  split; [apply proper_int; unfold grid_size, INT_MAX; cbn; lia|]. split; [vm_compute; reflexivity|].
  split; [constructor; [apply (shelf_gives files3 n2 [] (n2, e1)); reflexivity|constructor; [apply (shelf_gives files3 n3 [] (n3, e2)); reflexivity|constructor]]|].
  split; [constructor; [apply proper_int; unfold grid_size, INT_MAX; cbn; lia|constructor; [apply proper_int; unfold grid_size, INT_MAX; cbn; lia|constructor]]|].
  intros i j v FV V l [<- |[<- |[]]].
  - cbv zeta. pose proof FV as (I & J & _). destruct (nth_error (fl_vals e1) (Z.to_nat (i * 2 + j))) as [w|] eqn:E.
    + eexists. apply (e1_seen i j v FV w). split; [exact I|]. split; [exact J|exact E].
    + apply nth_error_None in E. cbn [e1 e0 fl_vals fl_geo fg_rows fg_cols List.length] in *. lia.
  - cbv zeta. destruct (e0_cells i j v FV V) as [(-> & -> & _)|[(-> & -> & _)|(-> & -> & _)]]; rewrite ?c00, ?c01, ?c11; cbn [fst snd].
    + exists (VI (-9999)). right. split; [apply e2_apart; lia|reflexivity].
    + exists (VI 7). apply e2_inside; lia.
    + exists (VI (-9999)). right. split; [apply e2_apart; lia|reflexivity].
Qed.
Lemma three_orders : any_order e0 (VI (-9999)) true [2; 0; 1]%nat (fun _ => [1; 2; 0]%nat).
Proof.
  unfold any_order. assert (E : valid_count e0 (VI (-9999)) = 3) by (vm_compute; reflexivity). rewrite E. change (Z.to_nat 3) with 3%nat. unfold schedule. change (seq 0 (Z.to_nat 3)) with [0; 1; 2]%nat.
  split; [|intros _]; [apply Permutation_sym, (Permutation_cons_app [2]%nat [1]%nat 0%nat), (Permutation_cons_app [2]%nat []), Permutation_refl|].
  apply Permutation_sym, (Permutation_cons_app [1; 2]%nat [] 0%nat). rewrite app_nil_r. apply Permutation_refl.
Qed.

Lemma fv0 i j v : 0 <= i < 2 -> 0 <= j < 2 -> nth_error (fl_vals e0) (Z.to_nat (i * 2 + j)) = Some v -> file_value e0 i j v.
Proof. intros I J E. split; [exact I|]. split; [exact J|exact E]. Qed.

(** [C93_layers]: the second file's NoData is -1, the third covers all four cells
    with one. *)
Example C93_case : exists h r core path,
  ReadFromFiles bare_os (fun _ => true) (shelf files3) RDT_Int32 [2; 0; 1]%nat (fun _ => [1; 2; 0]%nat) [n1; n2; n3] true (VI (-9999)) (VI (-9999)) =
    Ok (true, Some (mkLayered h r core path)) /\ r_nlyrs r = 3 /\
  GetValue r 0 1 1 = Ok (VI 2) /\ GetValue r 0 1 2 = Ok (VI (-9999)) /\ GetValue r 0 1 3 = Ok (VI 7) /\
  GetValue r 1 1 1 = Ok (VI 4) /\ GetValue r 1 1 2 = Ok (VI 40) /\ GetValue r 1 0 2 = Ok (VI (-9999)).
Proof.
  destruct (C93_layers bare_os _ _ _ _ _ _ _ _ true (VI (-9999)) (VI (-9999)) _ _ three_readable three_orders) as (h & r & core & path & E & _ & _ & _ & NL & _ & _ & _ & VAL).
  exists h, r, core, path. split; [exact E|]. clear E. split; [exact NL|].
  destruct (VAL 0 1 (VI 2) (fv0 0 1 (VI 2) ltac:(lia) ltac:(lia) eq_refl)) as [A _]. destruct (A ltac:(vm_compute; reflexivity)) as [A1 A2]. clear A.
  destruct (VAL 1 1 (VI 4) (fv0 1 1 (VI 4) ltac:(lia) ltac:(lia) eq_refl)) as [B _]. destruct (B ltac:(vm_compute; reflexivity)) as [B1 B2]. clear B.
  destruct (VAL 1 0 (VI (-9999)) (fv0 1 0 (VI (-9999)) ltac:(lia) ltac:(lia) eq_refl)) as [_ D]. destruct (D ltac:(vm_compute; reflexivity)) as [_ D2]. clear D.
  split; [exact A1|]. split; [|split; [|split; [exact B1|split; [|apply (D2 2); cbn; lia]]]].
  - apply (A2 0%nat e1); [reflexivity|]. pose proof (e1_seen 0 1 (VI 2) (fv0 0 1 (VI 2) ltac:(lia) ltac:(lia) eq_refl) (VI (-1))) as S.
    replace (FloatEqual (as_double (VI (-1))) (of_int (-1))) with true in S by (vm_compute; reflexivity). apply S. repeat split; cbn; lia.
  - apply (A2 1%nat e2); [reflexivity|]. rewrite c01. cbn [fst snd]. apply e2_inside; lia.
  - apply (B2 0%nat e1); [reflexivity|]. pose proof (e1_seen 1 1 (VI 4) (fv0 1 1 (VI 4) ltac:(lia) ltac:(lia) eq_refl) (VI 40)) as S.
    replace (FloatEqual (as_double (VI 40)) (of_int (-1))) with false in S by (vm_compute; reflexivity). apply S. repeat split; cbn; lia.
Qed.

(** [C93_same_grid]: files with one and another NoData value. *)
Example C93_same_grid_case : exists h r core path,
  ReadFromFiles bare_os (fun _ => true) (shelf files3) RDT_Int32 [2; 0; 1]%nat (fun _ => [1; 2; 0]%nat) [n1; n2] true (VI (-9999)) (VI (-9999)) =
    Ok (true, Some (mkLayered h r core path)) /\ GetValue r 0 0 2 = Ok (VI 10) /\ GetValue r 0 1 2 = Ok (VI (-9999)).
Proof.
  destruct three_readable as (_ & _ & G0 & P0 & CV & _).
  destruct (C93_same_grid bare_os (fun _ => true) (shelf files3) RDT_Int32 n1 [n2] e0 [e1] (VI (-9999)) true (VI (-9999)) (VI (-9999)) [2; 0; 1]%nat (fun _ => [1; 2; 0]%nat))
    as (h & r & core & path & E & VAL); [reflexivity|discriminate|exact G0|exact P0|exact CV| | |exact three_orders|].
  - constructor; [apply (shelf_gives files3 n2 [] (n2, e1)); reflexivity|constructor].
  - intros l [<- |[]]. split; [apply proper_int; unfold grid_size, INT_MAX; cbn; lia|reflexivity].
  - exists h, r, core, path. split; [exact E|]. clear E. split.
    + destruct (VAL 0 0 (VI 1) (fv0 0 0 (VI 1) ltac:(lia) ltac:(lia) eq_refl) ltac:(vm_compute; reflexivity)) as [_ A].
      specialize (A 0%nat e1 (VI 10) eq_refl ltac:(repeat split; cbn; lia)). replace (FloatEqual (as_double (VI 10)) (fl_nodata e1)) with false in A by (vm_compute; reflexivity). exact A.
    + destruct (VAL 0 1 (VI 2) (fv0 0 1 (VI 2) ltac:(lia) ltac:(lia) eq_refl) ltac:(vm_compute; reflexivity)) as [_ A].
      specialize (A 0%nat e1 (VI (-1)) eq_refl ltac:(repeat split; cbn; lia)). replace (FloatEqual (as_double (VI (-1))) (fl_nodata e1)) with true in A by (vm_compute; reflexivity). exact A.
Qed.

(** [C94_half_strip_refuted]: the third file has 7 at (1, 3), the raster NoData. *)
Example C94_case : exists h r core path,
  ReadFromFiles bare_os (fun _ => true) (shelf files3) RDT_Int32 [2; 0; 1]%nat (fun _ => [1; 2; 0]%nat) [n1; n2; n3] true (VI (-9999)) (VI (-9999)) =
    Ok (true, Some (mkLayered h r core path)) /\ GetValue r 0 0 3 = Ok (VI (-9999)).
Proof.
  destruct (C94_half_strip_refuted bare_os _ _ _ _ _ _ _ _ true (VI (-9999)) (VI (-9999)) _ _ 1%nat e2 0 0 (VI 1) 0 0 (VI 7) three_readable three_orders) as (h & r & core & path & E & V).
  - reflexivity.
  - apply fv0; [lia|lia|reflexivity].
  - vm_compute. reflexivity.
  - rewrite c00. cbn [fst snd]. unfold well_inside. cbn [e2 fl_geo fg_rows fg_cols fg_xll fg_yll fg_cs]. destruct (int_R 1 ltac:(lia)) as [FX VX]. destruct (int_R 3 ltac:(lia)) as [FY VY]. destruct (int_R 2 ltac:(lia)) as [_ V2]. destruct (int_R 4 ltac:(lia)) as [_ V4]. rewrite VX, VY, V2, V4.
    split; [lia|]. split; [lia|]. split; [exact FX|]. split; [exact FY|]. change (1 - 0 - 1) with 0. split; apply Rabs_le; lra.
  - repeat split; cbn; lia.
  - vm_compute. reflexivity.
  - rewrite c00. cbn [fst snd e2 fl_geo fg_xll]. destruct (int_R 1 ltac:(lia)) as [FX VX]. destruct (int_R 2 ltac:(lia)) as [_ V2]. left. rewrite VX, V2. lra.
  - exists h, r, core, path. split; [exact E|exact V].
Qed.

(** [C95_unreadable_refuted]: the third file is not there to be read. *)
Example C95_case : ReadFromFiles bare_os (fun _ => true) (shelf [(n1, e0); (n2, e1)]) RDT_Int32 [2; 0; 1]%nat (fun _ => [1; 2; 0]%nat) [n1; n2; n3] true (VI (-9999)) (VI (-9999)) = Throw.
Proof.
  destruct three_readable as (_ & _ & _ & P0 & CV & _ & PS & SE).
  apply (C95_unreadable_refuted bare_os (fun _ => true) (shelf [(n1, e0); (n2, e1)]) RDT_Int32 [2; 0; 1]%nat (fun _ => [1; 2; 0]%nat) n1 [n2] n3 [] e0 [e1] true (VI (-9999)) (VI (-9999)) (VI (-9999)) None);
    [reflexivity| |exact P0|exact CV| | |exact three_orders| |reflexivity|].
  - apply (shelf_gives [(n1, e0); (n2, e1)] n1 start (n1, e0)); reflexivity.
  - constructor; [apply (shelf_gives [(n1, e0); (n2, e1)] n2 [] (n2, e1)); reflexivity|constructor].
  - inversion PS; subst. constructor; [assumption|constructor].
  - intros i j v FV V l [<- |[]]. apply (SE i j v FV V). left. reflexivity.
  - exists 0, 0, (VI 1). split; [apply fv0; [lia|lia|reflexivity]|vm_compute; reflexivity].
Qed.

(** [C96_float_nodata_refuted]: two float layers of one cell, the second's NoData
    value -99.9 (given by its bits), its cell NoData. *)
Definition m99_9 : f64 := @binary_normalize 53 1024 prec_gt_0_53 prec_lt_53 mode_NE (-7029837543348634) (-46) false.
Definition u0 := mkFlayer (mkFgeo 1 1 (of_int 1) (of_int 1) (of_int 2)) (of_int (-9999)) [VF (f32_of_int 5)].
Definition u1 := mkFlayer (mkFgeo 1 1 (of_int 1) (of_int 1) (of_int 2)) m99_9 [VF (f32_of_f64 m99_9)].
Definition files2 := [(n1, u0); (n2, u1)].
Lemma u_centre i j : 0 <= i < 1 -> 0 <= j < 1 -> let xy := fCoordinate (fl_geo u0) i j in
  well_inside (fl_geo u1) i j (fst xy) (snd xy) /\ (B2R (fg_xll (fl_geo u1)) <= B2R (fst xy))%R /\ (B2R (fg_yll (fl_geo u1)) <= B2R (snd xy))%R.
Proof. intros I J. apply fcentre; [apply sane_int; unfold INT_MAX; lia|exact I|exact J]. Qed.
Lemma u_readable : readable (fun _ => true) (shelf files2) RDT_Float n1 [n2] u0 [u1] (VF (f32_of_f64 (of_int (-9999)))).
Proof.
  split; [reflexivity|]. split; [discriminate|]. split; [apply (shelf_gives files2 n1 start (n1, u0)); reflexivity|].
  split; [apply proper_int; unfold grid_size, INT_MAX; cbn [List.length]; lia|]. split; [reflexivity|].
  split; [constructor; [apply (shelf_gives files2 n2 [] (n2, u1)); reflexivity|constructor]|].
  split; [constructor; [apply proper_int; unfold grid_size, INT_MAX; cbn [List.length]; lia|constructor]|].
  intros i j v (I & J & _) _ l [<- |[]]. cbv zeta. eexists. left. exists i, j, (VF (f32_of_f64 m99_9)).
  destruct (u_centre i j I J) as (WI & X & Y). split; [exact WI|]. split; [exact X|]. split; [exact Y|]. split; [|reflexivity].
  split; [exact I|]. split; [exact J|]. cbn [u0 u1 fl_geo fg_rows fg_cols] in *. replace (Z.to_nat (i * 1 + j)) with 0%nat by lia. reflexivity.
Qed.
Example C96_case : exists h r core path,
  ReadFromFiles bare_os (fun _ => true) (shelf files2) RDT_Float [0]%nat (fun _ => [0]%nat) [n1; n2] true (VF (f32_of_int 0)) (VF (f32_of_int 0)) = Ok (true, Some (mkLayered h r core path)) /\
  IsNoData cells_equal r 0 0 2 = Ok false.
Proof.
  destruct (C96_float_nodata_refuted bare_os _ _ _ _ _ _ _ true (VF (f32_of_int 0)) (VF (f32_of_int 0)) [0]%nat (fun _ => [0]%nat) 0%nat u1 0 0 (VF (f32_of_int 5)) 0 0 (VF (f32_of_f64 m99_9)) u_readable) as (h & r & core & path & E & _ & V).
  - unfold any_order. assert (E : valid_count u0 (VF (f32_of_f64 (of_int (-9999)))) = 1) by (vm_compute; reflexivity). rewrite E. split; [|intros _]; apply Permutation_refl.
  - reflexivity.
  - split; [cbn; lia|]. split; [cbn; lia|]. reflexivity.
  - vm_compute. reflexivity.
  - apply (u_centre 0 0); lia.
  - apply (u_centre 0 0); lia.
  - apply (u_centre 0 0); lia.
  - split; [cbn; lia|]. split; [cbn; lia|]. reflexivity.
  - reflexivity.
  - vm_compute. reflexivity.
  - vm_compute. reflexivity.
  - exists h, r, core, path. split; [exact E|exact V].
Qed.

(** [C97_border_refuted]: grids of 2 x 2 cells of size 2, the second half a cell
    further left; the cells one after the other. *)
Definition b1 := mkFlayer (mkFgeo 2 2 (of_int (1 - 1)) (of_int 1) (of_int (2 * 1))) (of_int (-9999)) [VI 10; VI 20; VI 30; VI 40].
Example C97_case : ReadFromFiles bare_os (fun _ => true) (shelf [(n1, e0); (n2, b1)]) RDT_Int32 [2; 0; 1]%nat (fun _ => [1; 2; 0]%nat) [n1; n2] true (VI (-9999)) (VI (-9999)) = UB.
Proof.
  destruct (C97_border_refuted bare_os (fun _ => true) (shelf [(n1, e0); (n2, b1)]) RDT_Int32 [2; 0; 1]%nat (fun _ => [1; 2; 0]%nat) n1 n2 [] 2 2 1 1 1
    (of_int (-9999)) (of_int (-9999)) (fl_vals e0) (fl_vals b1) true (VI (-9999)) (VI (-9999)) (VI (-9999))) as [_ H].
  - reflexivity.
  - unfold grid_size, INT_MAX. lia.
  - lia.
  - lia.
  - lia.
  - reflexivity.
  - reflexivity.
  - apply (shelf_gives [(n1, e0); (n2, b1)] n1 start (n1, e0)); reflexivity.
  - vm_compute. reflexivity.
  - apply (shelf_gives [(n1, e0); (n2, b1)] n2 [] (n2, b1)); reflexivity.
  - exact three_orders.
  - apply (H (VI 4)); [apply fv0; [lia|lia|reflexivity]|vm_compute; reflexivity].
Qed.

(** [C98_template] and [C98_underscore_refuted] *)
Example C98_case : exists ly, ReadFromFiles bare_os (fun _ => true) (shelf files3) RDT_Int32 [2; 0; 1]%nat (fun _ => [1; 2; 0]%nat) [n1; n2; n3] true (VI (-9999)) (VI (-9999)) = Ok (true, Some ly) /\
  ly_core ly = str "dem" /\ ly_path ly = str "/d/dem_%d.asc".
Proof.
  destruct C93_case as (h & r & core & path & E & _). exists (mkLayered h r core path). split; [exact E|].
  apply (C98_template bare_os (fun _ => true) (shelf files3) RDT_Int32 [2; 0; 1]%nat (fun _ => [1; 2; 0]%nat) n1 n2 [n3] true (VI (-9999)) (VI (-9999)) _ n1 (str "/d") (str "dem") (str "dem_1") (str "asc") E).
  - right. split; reflexivity.
  - intros a' _. reflexivity.
  - split; [reflexivity|]. repeat split; cbn; intros H; repeat (destruct H as [H|H]; [discriminate H|]); exact H.
  - discriminate.
  - right. exists (str "1"). split; [reflexivity|]. cbn. intros [H|H]; [discriminate H|exact H].
Qed.

(** Soil depth and soil type in one directory, one template. *)
Definition p1 := str "/d/soil_depth.asc". Definition p2 := str "/d/soil_type.asc".
Definition files_s := [(p1, e0); (p2, e0)].
Lemma soil_reads p : p = p1 \/ p = p2 -> exists ly, ReadFromFiles bare_os (fun _ => true) (shelf files_s) RDT_Int32 [2; 0; 1]%nat (fun _ => [1; 2; 0]%nat) [p; p1] true (VI (-9999)) (VI (-9999)) = Ok (true, Some ly).
Proof.
  intros P. assert (F : find (fun e => beqb (fst e) p) files_s = Some (p, e0)) by (destruct P as [-> | ->]; reflexivity).
  destruct three_readable as (_ & _ & _ & P0 & CV & _).
  destruct (C93_same_grid bare_os (fun _ => true) (shelf files_s) RDT_Int32 p [p1] e0 [e0] (VI (-9999)) true (VI (-9999)) (VI (-9999)) [2; 0; 1]%nat (fun _ => [1; 2; 0]%nat))
    as (h & r & core & path & E & _); [reflexivity|discriminate| |exact P0|exact CV| | |exact three_orders|].
  - apply (shelf_gives files_s p start (p, e0) F).
  - constructor; [apply (shelf_gives files_s p1 [] (p1, e0)); reflexivity|constructor].
  - intros l [<- |[]]. split; [exact P0|reflexivity].
  - eexists. exact E.
Qed.
Example C98_underscore_case : exists ly ly', 
  ReadFromFiles bare_os (fun _ => true) (shelf files_s) RDT_Int32 [2; 0; 1]%nat (fun _ => [1; 2; 0]%nat) [p1; p1] true (VI (-9999)) (VI (-9999)) = Ok (true, Some ly) /\
  ReadFromFiles bare_os (fun _ => true) (shelf files_s) RDT_Int32 [2; 0; 1]%nat (fun _ => [1; 2; 0]%nat) [p2; p1] true (VI (-9999)) (VI (-9999)) = Ok (true, Some ly') /\
  ly_core ly = str "soil" /\ ly_path ly = ly_path ly'.
Proof.
  destruct (soil_reads p1 (or_introl eq_refl)) as [ly E]. destruct (soil_reads p2 (or_intror eq_refl)) as [ly' E']. exists ly, ly'. split; [exact E|]. split; [exact E'|].
  destruct (C98_underscore_refuted bare_os (fun _ => true) (shelf files_s) RDT_Int32 [2; 0; 1]%nat (fun _ => [1; 2; 0]%nat) p1 p1 [] true (VI (-9999)) (VI (-9999)) ly p2 p1 [] ly' p1 p2 (str "/d") (str "soil") (str "depth") (str "type") (str "asc") E E') as (C1 & _ & C2).
  - right. split; reflexivity.
  - intros a' _. reflexivity.
  - split; [reflexivity|]. repeat split; cbn; intros H; repeat (destruct H as [H|H]; [discriminate H|]); exact H.
  - cbn. intros H; repeat (destruct H as [H|H]; [discriminate H|]); exact H.
  - right. split; reflexivity.
  - intros a' _. reflexivity.
  - split; [reflexivity|]. repeat split; cbn; intros H; repeat (destruct H as [H|H]; [discriminate H|]); exact H.
  - cbn. intros H; repeat (destruct H as [H|H]; [discriminate H|]); exact H.
  - discriminate.
  - split; [exact C1|exact C2].
Qed.
