(** Raster objects in GridFS: cases. *)
From Coq Require Import ZArith QArith Reals Ascii String List Bool Lia Lra Sorted.
From Flocq Require Import Core BinarySingleNaN.
From Verif Require Import Base ListLib StrModel MapModel MapProofs RasterModel RasterSpec RasterProofs BasicModel FloatModel FloatProofs CoordFloatModel TypeModel MongoModel CopyModel NumModel AscModel AscSpec CellModel CellSpec CellProofs CellProofs2 GdalModel GdalProofs3 GdalProps GdalProps2 GridfsModel GridfsSpec GridfsProofs2 GridfsProofs3 GridfsProofs4 GridfsProofs5 GridfsProofs6 GridfsProofs7 GridfsProofs8 GridfsProps GridfsProps2 GridfsProps3.
Import ListNotations.
Open Scope Z_scope.

Definition o_header : smap f64 :=
  [(str "NCOLS", of_int 2); (str "NROWS", of_int 2); (str "XLLCENTER", fdiv (of_int 1) (of_int 2)); (str "YLLCENTER", of_int 3);
   (str "CELLSIZE", of_int 10); (str "NODATA_VALUE", of_int (-9)); (str "LAYERS", of_int 1)].
Definition o_own : smap bytes := [(str "DATATYPE_OUT", str "INT32"); (str "UNITS", str "m")].
Definition o_call : smap bytes := [(str "YEAR", str "1999")].
Definition mask_at (ix : list Z) : mask_view :=
  mkMask (Z.of_nat (length ix)) (Z.of_nat (length ix)) (Some (map (fun k => (k / 2, k mod 2)) ix)) (Some ix) (fun r => Ok (r, 0)).
Lemma o_fields : object_header o_header tif_dropped (fdiv (of_int 1) (of_int 2)) (of_int 3) (of_int 10) (of_int (-9)).
Proof.
  split; [repeat constructor; vm_compute; intuition discriminate|]. split; [intros k I; vm_compute in I |- *; tauto|]. split; [|repeat split].
  intros k x I. right. unfold o_header in I.
  repeat (destruct I as [I|I]; [apply pair_equal_spec in I; destruct I as [<- <-]; first [apply g_int; unfold in_int, INT_MIN, INT_MAX; lia|apply g_half]|]). destruct I.
Qed.
Lemma o_options : object_options o_own /\ object_options o_call /\ object_options (InitialStrHeader) /\ object_options [].
Proof.
  split; [|split; [|split]].
  - split; [repeat constructor; vm_compute; intuition discriminate|]. split; [intros k I; vm_compute in I |- *; intuition congruence|].
    intros k v [I|[I|[]]]; injection I as <- <-; plain_text.
  - split; [repeat constructor; vm_compute; intuition discriminate|]. split; [intros k I; vm_compute in I |- *; intuition congruence|].
    intros k v [I|[]]; injection I as <- <-. right. right. exists 1999. split; [unfold in_int, INT_MIN, INT_MAX; lia|reflexivity].
  - split; [vm_compute; repeat constructor; cbn; intuition discriminate|]. split; [intros k I; vm_compute in I |- *; intuition congruence|].
    intros k v I. vm_compute in I. left. intuition congruence.
  - split; [constructor|]. split; [intros k []|intros k v []].
Qed.
Lemma o_type : stores_own_type RDT_Int32 o_own o_call.
Proof. intros w E. vm_compute in E. injection E as <-. left. reflexivity. Qed.
Lemma o_nodata : cvt RDT_Int32 (VD (of_int (-9))) = Ok (r_nodata tif_dropped).
Proof. vm_compute. reflexivity. Qed.

(** A raster that has dropped a NoData cell, written under its own name beside
    another file, asked for by year. *)
Example C83_case : exists f own' h' o' r',
  OutputToMongoDB num_eq RDT_Int32 [] third_time [g_old] o_header o_own tif_dropped (str "slope") [] o_call true = Ok (true, [g_old; f], tif_dropped, own') /\
  ReadFromMongoDB (@hd_error gfile) num_eq RDT_Int32 [] [g_old; f] (str "slope") false None true (VI 0) (VI (-9999)) o_call = Ok (true, h', o', Some r') /\
  full_grid r' /\ same_grid tif_dropped r' /\ (r_xll r' == 1 # 2)%Q /\ (r_yll r' == 3)%Q /\ (r_cs r' == 10)%Q /\ lookup o' (str "UNITS") = Some (str "m").
Proof.
  destruct o_options as (O1 & O2 & _).
  destruct (C83_round_trip (@hd_error gfile) num_eq RDT_Int32 [] [] third_time [g_old] o_header o_own o_call tif_dropped (str "slope") []
    (fdiv (of_int 1) (of_int 2)) (of_int 3) (of_int 10) (of_int (-9)) o_call true (VI 0) (VI (-9999)))
    as (f & own' & h' & o' & r' & W & _ & R & F & SG & X & Y & CS & _ & OP & _); auto.
  - exact g_finds.
  - discriminate.
  - right. exists [0; 2; 3]. exact tif_compact.
  - apply tif_grid.
  - vm_compute. discriminate.
  - exact o_fields.
  - exact o_type.
  - exact tif_cells.
  - exact g_saves.
  - intros f [<-|[]]. discriminate.
  - repeat constructor. intros [].
  - intros k v [E|[]]. injection E as <- <-. repeat split; vm_compute; discriminate.
  - exists f, own', h', o', r'. split; [exact W|]. split; [exact R|]. split; [exact F|]. split; [exact SG|]. rewrite X, Y, CS.
    split; [vm_compute; reflexivity|]. split; [vm_compute; reflexivity|]. split; [vm_compute; reflexivity|]. apply OP; vm_compute; congruence.
Qed.

(** The same raster as built from an array, and one to be written as 64-bit
    integers. *)
Example C49_object_case : 
  OutputToMongoDB num_eq RDT_Int32 [] third_time [g_old] o_header InitialStrHeader tif_dropped (str "slope") [] o_call true = UB /\
  OutputToMongoDB num_eq RDT_Int32 [] third_time [g_old] o_header o_own tif_dropped (str "slope") [] [(str "DATATYPE_OUT", str "INT64")] true = UB.
Proof.
  destruct o_options as (O1 & O2 & _). split.
  - eapply (C49_built_refuted _ _ _ _ _ o_header o_call tif_dropped); try exact o_fields; auto; [discriminate|right; eexists; exact tif_compact|apply tif_grid|vm_compute; discriminate].
  - eapply (C49_object_refuted _ _ _ _ _ o_header o_own [(str "DATATYPE_OUT", str "INT64")] tif_dropped _ _ _ _ _ _ (str "INT64")); try exact o_fields; auto.
    + right; eexists; exact tif_compact.
    + apply tif_grid.
    + vm_compute; discriminate.
    + split; [repeat constructor; intros []|]. split; [intros k [<-|[]]; vm_compute; intuition discriminate|]. intros k v [E|[]]. injection E as <- <-. plain_text.
    + split; [discriminate|right; right; reflexivity].
Qed.

(** Written without NoData; values 5, 7, 8 at cells 0, 2, 3. Read with the same mask
    and with another of three cells. *)
Definition asked_valid : smap bytes := (str "INCLUDE_NODATA", str "FALSE") :: o_call.
Lemma o_asks : asks_valid o_own o_call asked_valid.
Proof.
  split; [repeat constructor; vm_compute; intuition discriminate|]. split; [reflexivity|].
  intros k v [E|[E|[]]] N; injection E as <- <-; [exfalso; apply N; reflexivity|]. split; vm_compute; congruence.
Qed.
Example C84_case ix' : ix' = [0; 2; 3] \/ ix' = [0; 1; 2] -> exists f own' h' o' r',
  OutputToMongoDB num_eq RDT_Int32 [] third_time [g_old] o_header o_own tif_dropped (str "slope") [] o_call false = Ok (true, [g_old; f], tif_dropped, own') /\
  ReadFromMongoDB (@hd_error gfile) num_eq RDT_Int32 [] [g_old; f] (str "slope") true (Some (mask_at ix')) true (VI 0) (VI (-9999)) asked_valid = Ok (true, h', o', Some r') /\
  r_data r' = Some [VI 5; VI 7; VI 8] /\ compact r' ix' /\
  forall q c c', nth_error [0; 2; 3] q = Some c -> nth_error ix' q = Some c' -> GetValue r' (c' / 2) (c' mod 2) 1 = GetValue tif_dropped (c / 2) (c mod 2) 1.
Proof.
  intros IX. destruct o_options as (O1 & O2 & _).
  destruct (C84_by_rank (@hd_error gfile) num_eq RDT_Int32 [] [] third_time [g_old] o_header o_own o_call tif_dropped [0; 2; 3] (str "slope") []
    (fdiv (of_int 1) (of_int 2)) (of_int 3) (of_int 10) (of_int (-9)) asked_valid (mask_at ix') ix' (VI 0) (VI (-9999)))
    as (f & own' & h' & o' & r' & W & _ & R & C & _ & _ & _ & _ & V); auto.
  - exact g_finds.
  - discriminate.
  - exact tif_compact.
  - apply tif_grid.
  - vm_compute. discriminate.
  - exact o_fields.
  - exact o_type.
  - exact tif_cells.
  - exact g_saves.
  - intros f [<-|[]]. discriminate.
  - exact o_asks.
  - repeat split.
  - destruct IX as [-> | ->]; reflexivity.
  - destruct IX as [-> | ->]; repeat constructor.
  - change (r_rows tif_dropped * r_cols tif_dropped) with 4. destruct IX as [-> | ->]; repeat constructor; lia.
  - exists f, own', h', o', r'. split; [exact W|]. split; [exact R|]. split; [|split; [exact C|]].
    + clear - W R IX. cbn [app] in W, R. assert (F : f = match OutputToMongoDB num_eq RDT_Int32 [] third_time [g_old] o_header o_own tif_dropped (str "slope") [] o_call false with Ok (_, [_; g], _, _) => g | _ => g_old end) by (rewrite W; reflexivity).
      assert (D : match ReadFromMongoDB (@hd_error gfile) num_eq RDT_Int32 [] [g_old; f] (str "slope") true (Some (mask_at ix')) true (VI 0) (VI (-9999)) asked_valid with Ok (_, _, _, Some q) => r_data q | _ => None end = r_data r') by (rewrite R; reflexivity).
      rewrite <- D, F. clear - IX. destruct IX as [-> | ->]; vm_compute; reflexivity.
    + intros q c c' E E'. apply (V q c c' 1 E E'). vm_compute. split; discriminate.
Qed.

(** The file written cannot be read without a mask. *)
Definition valid_file : list gfile :=
  match OutputToMongoDB num_eq RDT_Int32 [] third_time [g_old] o_header o_own tif_dropped (str "slope") [] o_call false with Ok (_, st, _, _) => st | _ => [] end.
Example C84_needs_mask_case :
  (forall f, In f valid_file -> gf_name f = str "slope" -> NoDup (map fst (gf_meta f)) /\ In (str "INCLUDE_NODATA", BUtf8 (str "FALSE")) (gf_meta f)) /\
  map gf_name valid_file = [str "dem"; str "slope"] /\
  match ReadFromMongoDB (@hd_error gfile) num_eq RDT_Int32 [] valid_file (str "slope") true None true (VI 0) (VI (-9999)) asked_valid with Ok (b, _, _, _) => b | _ => true end = false.
Proof.
  split; [|split; vm_compute; reflexivity]. intros f I N.
  assert (E1 : map gf_name valid_file = [str "dem"; str "slope"]) by (vm_compute; reflexivity).
  assert (E2 : forallb (fun f => if beqb (gf_name f) (str "slope") then match lookup (gf_meta f) (str "INCLUDE_NODATA") with Some (BUtf8 t) => beqb t (str "FALSE") | _ => false end else true) valid_file = true) by (vm_compute; reflexivity).
  assert (E3 : map (fun f => map fst (gf_meta f)) valid_file = [[str "UNITS"; str "DATATYPE_OUT"]; map str ["NCOLS"; "NROWS"; "XLLCENTER"; "YLLCENTER"; "CELLSIZE"; "NODATA_VALUE"; "LAYERS"; "CELLSNUM"; "DATATYPE_OUT"; "UNITS"; "YEAR"; "INCLUDE_NODATA"]%string]) by (vm_compute; reflexivity).
  split.
  - apply (in_map (fun f => map fst (gf_meta f))) in I. rewrite E3 in I. destruct I as [<-|[<-|[]]]; vm_compute; repeat constructor; cbn; intuition discriminate.
  - rewrite forallb_forall in E2. specialize (E2 f I). rewrite N, MapProofs.beqb_refl in E2.
    destruct (lookup (gf_meta f) (str "INCLUDE_NODATA")) as [[t| | | | |]|] eqn:L; try discriminate E2. apply beqb_true in E2. subst t. apply lookup_found in L. exact L.
Qed.

(** All cells NoData: the file is written, and reading it is undefined. *)
Definition tif_none : raster num := FromArray (Some [VI (-9); VI (-9); VI (-9); VI (-9)]) 2 2 (VI (-9)) (VI 0) 10%Q 0%Q 3%Q.
Definition none_dropped : raster num := match SetCalcPositions num_eq [] tif_none with Ok (r', _) => r' | _ => tif_none end.
Example C84_nothing : match OutputToMongoDB num_eq RDT_Int32 [] third_time [g_old] o_header o_own none_dropped (str "slope") [] o_call false with
  | Ok (b, st, _, _) => Some (b, map gf_name st, match ReadFromMongoDB (@hd_error gfile) num_eq RDT_Int32 [] st (str "slope") true (Some (mask_at [])) true (VI 0) (VI (-9999)) asked_valid with UB => true | _ => false end)
  | _ => None end = Some (true, [str "dem"; str "slope"], true).
Proof. vm_compute. reflexivity. Qed.
