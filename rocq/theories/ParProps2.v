(** C149, continued: the loops and the models of other properties, which run the iterations
    one after the other. *)
From Coq Require Import ZArith QArith List Bool Lia Permutation.
From Flocq Require Import BinarySingleNaN.
From Verif Require Import GridfsModel ParProofs7 Base RasterModel RasterSpec StrModel MapModel BasicModel FloatModel TypeModel CoordFloatModel CopyModel NumModel AscModel CellModel LayersModel MathModel MathSpec GdalModel ListLib RasterProofs2
  ParModel ParSpec ParProofs ParProofs2 ParProofs4 ParProofs5 ParProofs6 ParProps.
Import ListNotations.
Open Scope Z_scope.
Open Scope outcome_scope.

(** The layers of other files, by positions and by rows (C93). *)
Theorem C149_layer_pos_seq : forall (D R : Type) own h nd vals lyr ks cols ord d d' (m0 : mem num D), schedule (Z.of_nat (length ks)) ord ->
  ofold (by_position own nd (Some ks) cols lyr h (Some vals)) ord d = Ok d' -> shows_table m0 d ->
  holds1 m0 A_posidx (Z.of_nat (length ks)) (fun i => WI (nth (Z.to_nat i) ks 0)) -> holds1 m0 A_layer (Z.of_nat (length vals)) (fun i => WT (nth (Z.to_nat i) vals nd)) ->
  exists m1, parallel_for (Z.of_nat (length ks)) (@layer_pos num D R (layer_place own h) (layer_nodata h) nd cols lyr) m0 m1 (fun _ => []) /\ shows_table m1 d'.
Proof. intros D R own h nd vals lyr ks cols ord d d' m0. apply positions_seq. Qed.
Print Assumptions C149_layer_pos_seq.
Theorem C149_layer_row_seq : forall (D R : Type) own h nd vals lyr rows cols ord d d' (m0 : mem num D), 0 < lyr -> 0 <= rows -> 0 < cols -> schedule rows ord ->
  ofold (by_row own nd cols lyr h (Some vals)) ord d = Ok d' -> shows_table m0 d -> holds1 m0 A_layer (Z.of_nat (length vals)) (fun i => WT (nth (Z.to_nat i) vals nd)) ->
  exists m1, parallel_for rows (@layer_row num D R (layer_place own h) (layer_nodata h) (cells_equal nd) nd cols lyr) m0 m1 (fun _ => []) /\ shows_table m1 d'.
Proof. intros D R own h nd vals lyr rows cols ord d d' m0. apply rows_seq. Qed.
Print Assumptions C149_layer_row_seq.

(** Conversion of the cells for a GeoTIFF file (C46): what is stored, and the number of
    illegal values. *)
Theorem C149_convert_seq : forall s t nd z changed vals lo tlo hi thi ord n a c (m0 : mem num num), limits t = Some ((lo, tlo), (hi, thi)) -> 0 <= n -> n <= Z.of_nat (length vals) -> schedule n ord ->
  fit_cells s t nd z changed ord n (Some vals) = Ok (a, c) -> there1 m0 A_new n -> holds1 m0 A_data n (fun i => WT (nth (Z.to_nat i) vals (VI 0))) ->
  exists m1 added, parallel_for n (convert (fun v => FloatEqual (as_double v) nd) changed (fun v => less s v lo tlo || greater s v hi thi) (fun v => match cvt t v with Ok w => Some w | _ => None end) (VI z) 1) m0 m1 added /\
    (forall i w, aget a i = Ok (Some w) -> m1 (A_new, i, 0) = Some (WD w)) /\ fold_right Z.add 0 (concat (map added (zseq n))) = c.
Proof. exact convert_seq. Qed.
Print Assumptions C149_convert_seq.

(** Cells read from GridFS (C83, C84): one layer by positions, and several layers. *)
Theorem C149_db_seq : forall (D R : Type) data n ix rows (m0 : mem num D), 0 <= n -> gather data 1 n (Some ix) = Ok rows -> from_store m0 data (Some ix) -> there1 m0 A_raster n ->
  exists m1, parallel_for n (@from_db1 num D R (fun x => x)) m0 m1 (fun _ => []) /\ forall i x, aget (concat rows) i = Ok x -> m1 (A_raster, i, 0) = Some (WT x).
Proof. intros D R data n ix rows m0. apply db_one_seq. Qed.
Print Assumptions C149_db_seq.
Theorem C149_db_layers_seq : forall (D R : Type) data lyrs n idx rows (m0 : mem num D), 0 <= n -> 0 <= lyrs -> gather data lyrs n idx = Ok rows -> from_store m0 data idx ->
  there2 m0 A_raster2 n lyrs ->
  exists m1, parallel_for n (@from_db2 num D R (match idx with Some _ => true | None => false end) lyrs) m0 m1 (fun _ => []) /\ shows_table m1 rows.
Proof. intros D R data lyrs n idx rows m0. apply db_layers_seq. Qed.
Print Assumptions C149_db_layers_seq.

(** The squared deviations added up by BasicStatistics (C16): those of some team. *)
Theorem C149_std_team : forall (D : Type) (feq : Q -> Q -> bool) (exclude mean : Q) (values : list Q) (m0 : mem Q D) chunks tr m ps,
  holds1 m0 A_data (Z.of_nat (length values)) (fun i => WT (nth (Z.to_nat i) values 0%Q)) ->
  Permutation (concat chunks) (zseq (Z.of_nat (length values))) ->
  exec m0 (start (std1 (fun v => feq v exclude) (fun x y => (x - mean) * (y - mean))%Q) chunks) tr m ps -> finished ps ->
  forall s, Permutation (leaves s) (seq 0 (length ps)) ->
  exists t, covers t (length values) /\
    obind (combined qadd 0%Q s ps) (fun x => qadd 0%Q x) =
    reduce qadd 0%Q (fun i => obind (aget values (Z.of_nat i)) (fun v => Ok (dev_term feq exclude (Some mean) v))) 0%Q t.
Proof.
  intros D feq exclude mean values m0 chunks tr m ps H P X F s PS.
  destruct (teams _ _ m0 m0 _ (fun i => obind (aget values (Z.of_nat i)) (fun v => Ok (dev_term feq exclude (Some mean) v)))
    (std1_par (fun v => feq v exclude) (fun x y => (x - mean) * (y - mean))%Q _ m0 (fun i => nth (Z.to_nat i) values 0%Q) H)) with (chunks := chunks) (tr := tr) (m := m) (ps := ps) (s := s) as (t & C & E); try assumption.
  - intros i B. rewrite (aget_ok _ _ (nth (Z.to_nat i) values 0%Q)); [|lia|rewrite Nat2Z.id; apply nth_error_nth'; lia]. cbn [obind]. eexists. split; [reflexivity|]. unfold dev_term. destruct (feq _ exclude); reflexivity.
  - exists t. rewrite Nat2Z.id in C. split; [exact C|]. unfold reduce. rewrite E. reflexivity.
Qed.
Print Assumptions C149_std_team.

(** ** Concrete cases: two cells, of which the second has a value in the layer as well, and a
    layer that is one cell wide. *)
Definition two_header (cols : Z) : smap f64 :=
  [(K_NCOLS, of_int cols); (K_NROWS, of_int 1); (K_XLL, of_int 5); (K_YLL, of_int 5); (K_CELLSIZE, of_int 10); (K_NODATA, of_int (-9))].
Definition layer_memory : mem num Z := fun l =>
  match l with
  | (A_raster2, 0, 0) => Some (WT (VI 1)) | (A_raster2, 0, 1) => Some (WT (VI 0)) | (A_raster2, 1, 0) => Some (WT (VI 2)) | (A_raster2, 1, 1) => Some (WT (VI 0))
  | (A_layer, 0, 0) => Some (WT (VI 7)) | (A_posidx, 0, 0) => Some (WI 0) | (A_posidx, 1, 0) => Some (WI 1)
  | _ => None
  end.
Example C149_layer_ex :
  ofold (by_position (two_header 2) (VI (-9)) (Some [0; 1]) 2 1 (two_header 1) (Some [VI 7])) [1; 0]%nat [[VI 1; VI 0]; [VI 2; VI 0]] = Ok [[VI 1; VI 7]; [VI 2; VI (-9)]] /\
  ofold (by_row (two_header 2) (VI (-9)) 2 1 (two_header 1) (Some [VI 7])) [0]%nat [[VI 1; VI 0]; [VI 2; VI 0]] = Ok [[VI 1; VI 7]; [VI 2; VI (-9)]] /\
  shows_table layer_memory [[VI 1; VI 0]; [VI 2; VI 0]] /\ holds1 layer_memory A_posidx 2 (fun i => WI (nth (Z.to_nat i) [0; 1] 0)) /\
  holds1 layer_memory A_layer 1 (fun i => WT (nth (Z.to_nat i) [VI 7] (VI (-9)))).
Proof.
  split; [vm_compute; reflexivity|]. split; [vm_compute; reflexivity|]. split; [|split].
  - intros i row lyr x A B. apply aget_inv in A. destruct A as [P A]. apply aget_inv in B. destruct B as [Q B].
    assert (I : (Z.to_nat i < 2)%nat) by (change 2%nat with (length [[VI 1; VI 0]; [VI 2; VI 0]]); apply nth_error_Some; congruence). assert (CI : i = 0 \/ i = 1) by lia.
    destruct CI as [->| ->]; cbn in A; injection A as <-; (assert (J : (Z.to_nat lyr < 2)%nat) by (match type of B with nth_error ?l _ = _ => change 2%nat with (length l) end; apply nth_error_Some; congruence));
      assert (CJ : lyr = 0 \/ lyr = 1) by lia; destruct CJ as [->| ->]; cbn in B; injection B as <-; reflexivity.
  - intros i B. assert (C : i = 0 \/ i = 1) by lia. destruct C as [->| ->]; reflexivity.
  - intros i B. assert (i = 0) by lia. subst i. reflexivity.
Qed.

(** Three cells, the second NoData: the values collected, and the memory for the loop. *)
Definition three : raster Z := FromArray (Some [5; -9; 7]) 3 1 (-9) 0 (1#1)%Q (0#1)%Q (0#1)%Q.
Definition three_memory : mem Z Z := fun l =>
  match l with
  | (A_vals, 0, 0) => Some (WT 5) | (A_vals, 1, 0) => Some (WT 7) | (A_prow, 0, 0) => Some (WI 0) | (A_prow, 1, 0) => Some (WI 0) | (A_pcol, 0, 0) => Some (WI 0) | (A_pcol, 1, 0) => Some (WI 2)
  | (A_raster, 0, 0) | (A_raster, 1, 0) => Some (WT (-9)) | (A_pos, 0, 0) | (A_pos, 0, 1) | (A_pos, 1, 0) | (A_pos, 1, 1) | (A_posidx, 0, 0) | (A_posidx, 1, 0) => Some (WI 0)
  | _ => None
  end.
Example C149_compact_ex : full_grid three /\ collect_valid Z.eqb three = Ok [mkVcell 0 0 [5]; mkVcell 0 2 [7]] /\ collected three_memory [mkVcell 0 0 [5]; mkVcell 0 2 [7]] /\
  there1 three_memory A_raster 2 /\ there2 three_memory A_pos 2 2 /\ there1 three_memory A_posidx 2 /\
  (let* r' := CalculateValidPositions Z.eqb [1; 0]%nat three in Ok (r_data r', r_posidx r')) = Ok (Some [5; 7], Some [0; 2]).
Proof.
  split; [|split; [reflexivity|split; [|split; [|split; [|split]]]]].
  - unfold full_grid, storage. cbn. repeat split; try lia. exists [5; -9; 7]. split; reflexivity.
  - intros i c A. apply aget_inv in A. destruct A as [P A]. assert (I : (Z.to_nat i < 2)%nat) by (match type of A with nth_error ?l _ = _ => change 2%nat with (length l) end; apply nth_error_Some; congruence).
    assert (C : i = 0 \/ i = 1) by lia. destruct C as [->| ->]; cbn in A; injection A as <-; (split; [reflexivity|]; split; [reflexivity|]); intros j x B; apply aget_inv in B; destruct B as [Q B]; cbn [vc_vals] in B;
      (assert (J : (Z.to_nat j < 1)%nat) by (match type of B with nth_error ?l _ = _ => change 1%nat with (length l) end; apply nth_error_Some; congruence)); assert (j = 0) by lia; subst j; cbn in B; injection B as <-; reflexivity.
  - intros i B. assert (C : i = 0 \/ i = 1) by lia. destruct C as [->| ->]; discriminate.
  - intros i j B J. assert (C : i = 0 \/ i = 1) by lia. assert (CJ : j = 0 \/ j = 1) by lia. destruct C as [->| ->], CJ as [->| ->]; discriminate.
  - intros i B. assert (C : i = 0 \/ i = 1) by lia. destruct C as [->| ->]; discriminate.
  - vm_compute. reflexivity.
Qed.
(** Converting 5, -9 (NoData) and 300 to bytes: one illegal value, and NoData becomes 255. *)
Example C149_convert_ex : option_map (fun x => (snd (fst x), snd x)) (fit_nodata RDT_UInt8 (of_int (-9))) = Some (255, true) /\
  fit_cells RDT_Int32 RDT_UInt8 (of_int (-9)) 255 true [2; 0; 1]%nat 3 (Some [VI 5; VI (-9); VI 300]) = Ok ([Some (VI 5); Some (VI 255); Some (VI 44)], 1).
Proof. split; vm_compute; reflexivity. Qed.
(** Two threads have added 5 and 7: the sum is 12. *)
Example C149_team_ex : @combined Z Z Z zadd 0 (Node (Leaf 1) (Leaf 0)) [(Done, [5]); (Done, [7])] = Ok 12 /\ Permutation (leaves (Node (Leaf 1) (Leaf 0))) (seq 0 2).
Proof. split; [reflexivity|]. apply perm_swap. Qed.

(** Three cells of two layers in the store, of which the last and the first are wanted. *)
Definition db_mem : mem num num := fun l =>
  match l with
  | (A_db, k, 0) => match aget [VI 1; VI 2; VI 3; VI 4; VI 5; VI 6] k with Ok x => Some (WT x) | _ => None end
  | (A_posidx, i, 0) => match aget [2; 0] i with Ok z => Some (WI z) | _ => None end
  | (A_raster2, i, j) => if within i 2 && within j 2 then Some (WT (VI 0)) else None
  | (A_raster, i, 0) => if within i 2 then Some (WT (VI 0)) else None
  | _ => None
  end.
Example C149_db_ex : gather [VI 1; VI 2; VI 3; VI 4; VI 5; VI 6] 2 2 (Some [2; 0]) = Ok [[VI 5; VI 6]; [VI 1; VI 2]] /\
  gather [VI 1; VI 2; VI 3; VI 4; VI 5; VI 6] 1 2 (Some [2; 0]) = Ok [[VI 3]; [VI 1]] /\
  from_store db_mem [VI 1; VI 2; VI 3; VI 4; VI 5; VI 6] (Some [2; 0]) /\ there2 db_mem A_raster2 2 2 /\ there1 db_mem A_raster 2.
Proof.
  split; [reflexivity|]. split; [reflexivity|]. split; [split|split].
  - intros k x A. cbn -[aget]. rewrite A. reflexivity.
  - intros ix i z E A. injection E as <-. cbn -[aget]. rewrite A. reflexivity.
  - intros i j I J. cbn. replace (within i 2 && within j 2) with true by (unfold within; lia). discriminate.
  - intros i I. cbn. replace (within i 2) with true by (unfold within; lia). discriminate.
Qed.
