(** Raster objects to GridFS and back. *)
From Coq Require Import ZArith QArith Reals Ascii String List Bool Lia Lra ZifyBool.
From Flocq Require Import Core BinarySingleNaN.
From Verif Require Import Base ListLib StrModel StrProofs MapModel MapProofs RasterModel RasterSpec RasterProofs BasicModel FloatModel FloatProofs CoordFloatModel TypeModel MongoModel MongoProofs CopyModel NumModel NumProofs AscModel AscSpec AscProofs CellModel CellSpec CellProofs CellProofs2 GdalModel GdalProofs3 GridfsModel GridfsSpec GridfsProofs GridfsProofs2 GridfsProofs3 GridfsProofs4 GridfsProofs5.
Import ListNotations.
Open Scope Z_scope.
Open Scope outcome_scope.

(** ** Options *)
Lemma options_NoDup s own opts inc : NoDup (map fst own) -> NoDup (map fst (output_options s own opts inc)).
Proof.
  intros N. unfold output_options. cbv zeta. apply UpdateMap_NoDup. assert (C : NoDup (map fst (CopyMap opts own))) by (apply CopyMap_NoDup; exact N).
  destruct (lookup (CopyMap opts own) K_OUTTYPE) as [t|]; [destruct (StringMatch (str "Unknown") t)|]; try exact C; apply UpdateMap_NoDup; exact C.
Qed.

Lemma options_lookup s own opts inc k : NoDup (map fst opts) ->
  lookup (output_options s own opts inc) k =
    if beqb K_INCNODATA k then Some (if inc then str "TRUE" else str "FALSE")
    else match effective own opts k with
         | Some w => if beqb K_OUTTYPE k && StringMatch (str "Unknown") w then Some (RasterDataTypeToString s) else Some w
         | None => if beqb K_OUTTYPE k then Some (RasterDataTypeToString s) else None
         end.
Proof.
  intros N. unfold output_options. cbv zeta. rewrite lookup_UpdateMap. destruct (beqb K_INCNODATA k); [reflexivity|].
  assert (C : forall k, lookup (CopyMap opts own) k = effective own opts k) by (intros q; unfold effective; rewrite CopyMap_lookup by exact N; reflexivity).
  destruct (beqb K_OUTTYPE k) eqn:B.
  - apply beqb_true in B. subst k. rewrite C. destruct (effective own opts K_OUTTYPE) as [w|] eqn:E; cbn [andb].
    + destruct (StringMatch (str "Unknown") w) eqn:M; [rewrite lookup_UpdateMap, MapProofs.beqb_refl; reflexivity|rewrite C; exact E].
    + rewrite lookup_UpdateMap, MapProofs.beqb_refl. reflexivity.
  - rewrite C. cbn [andb]. destruct (effective own opts K_OUTTYPE) as [w|]; [destruct (StringMatch (str "Unknown") w)|]; rewrite ?lookup_UpdateMap, ?B, C; destruct (effective own opts k); reflexivity.
Qed.

Lemma effective_from own opts k v : effective own opts k = Some v -> In (k, v) opts \/ In (k, v) own.
Proof. unfold effective. destruct (lookup opts k) eqn:E; intros H; [injection H as ->; left|right]; apply lookup_found; assumption. Qed.

Lemma text_plain (inc : bool) : plain_option (if inc then str "TRUE" else str "FALSE").
Proof. right. left. destruct inc; vm_compute; discriminate. Qed.

Lemma options_storable s own opts inc : object_options own -> object_options opts ->
  object_options (output_options s own opts inc) /\ forall k v, lookup (output_options s own opts inc) k = Some v -> plain_option v.
Proof.
  intros (N1 & K1 & P1) (N2 & K2 & P2). pose proof (options_NoDup s own opts inc N1) as N.
  assert (A : forall k v, lookup (output_options s own opts inc) k = Some v -> ~ In k header_keys /\ plain_option v).
  { intros k v. rewrite (options_lookup s own opts inc k N2). destruct (beqb K_INCNODATA k) eqn:B1.
    - apply beqb_true in B1. subst k. intros E. injection E as <-. split; [vm_compute; intuition discriminate|apply text_plain].
    - assert (T : K_OUTTYPE = k -> ~ In k header_keys) by (intros <-; vm_compute; intuition discriminate).
      destruct (effective own opts k) as [w|] eqn:E.
      + apply effective_from in E. assert (KV : ~ In k header_keys /\ plain_option w).
        { destruct E as [I|I]; [split; [apply K2; change k with (fst (k, w)); apply in_map; exact I|exact (P2 k w I)]|split; [apply K1; change k with (fst (k, w)); apply in_map; exact I|exact (P1 k w I)]]. }
        destruct (beqb K_OUTTYPE k && StringMatch (str "Unknown") w); intros H; injection H as <-; [|exact KV]. split; [exact (proj1 KV)|apply type_plain].
      + destruct (beqb K_OUTTYPE k) eqn:B2; [|discriminate]. apply beqb_true in B2. intros H; injection H as <-. split; [exact (T B2)|apply type_plain]. }
  split; [|intros k v E; exact (proj2 (A k v E))]. split; [exact N|]. split.
  - intros k I. destruct (lookup (output_options s own opts inc) k) as [v|] eqn:E; [exact (proj1 (A k v E))|]. apply lookup_none in E. contradiction.
  - intros k v I. apply (lookup_In _ _ _ N) in I. exact (proj2 (A k v I)).
Qed.

Lemma options_target s own opts inc : NoDup (map fst opts) -> stores_own_type s own opts -> s <> RDT_Unknown -> target s (output_options s own opts inc) s.
Proof.
  intros N O U. right. rewrite (options_lookup s own opts inc _ N). change (str "DATATYPE_OUT") with K_OUTTYPE. change (beqb K_INCNODATA K_OUTTYPE) with false. cbv iota.
  rewrite MapProofs.beqb_refl. cbn [andb]. assert (S : StringToRasterDataType (RasterDataTypeToString s) = s) by (destruct s; first [reflexivity|congruence]).
  destruct (effective own opts K_OUTTYPE) as [w|] eqn:E; [|eauto]. destruct (StringMatch (str "Unknown") w) eqn:M; [eauto|].
  exists w. split; [reflexivity|]. destruct (O w E) as [T| ->]; [exact T|]. vm_compute in M. discriminate.
Qed.

(** ** Header *)
Definition file_header (h : smap f64) (cells : Z) : smap f64 := UpdateMap (CopyMap h []) K_CELLSNUM (of_int cells).
Lemma file_header_lookup h cells k : NoDup (map fst h) -> lookup (file_header h cells) k = if beqb K_CELLSNUM k then Some (of_int cells) else lookup h k.
Proof.
  intros N. unfold file_header. rewrite lookup_UpdateMap, (CopyMap_lookup h N [] k). cbn [lookup]. destruct (beqb K_CELLSNUM k); [reflexivity|]. destruct (lookup h k); reflexivity.
Qed.

Lemma int_fits k z : in_int z -> fits_meta k (of_int z).
Proof.
  intros I. right. destruct (of_int_exact z) as [F E]; [unfold in_int, INT_MIN, INT_MAX in I; lia|]. split; [exact F|]. intros _. rewrite E. split; apply IZR_le; apply I.
Qed.

Lemma file_storable (r : raster num) h x y cs nd cells o : object_header h r x y cs nd -> in_int cells -> object_options o -> storable (file_header h cells) o.
Proof.
  intros (N & K & F & _) I (NO & KO & PO).
  assert (NH : NoDup (map fst (file_header h cells))) by (apply UpdateMap_NoDup, CopyMap_NoDup; constructor).
  assert (A : forall k v, In (k, v) (file_header h cells) -> In k header_keys /\ fits_meta k v).
  { intros k v J. apply (lookup_In _ _ _ NH) in J. rewrite (file_header_lookup h cells k N) in J. destruct (beqb K_CELLSNUM k) eqn:B.
    - apply beqb_true in B. subst k. injection J as <-. split; [vm_compute; tauto|apply int_fits; exact I].
    - apply lookup_found in J. split; [apply K; change k with (fst (k, v)); apply in_map; exact J|]. destruct (F k v J) as [->|Q]; [vm_compute in B; discriminate|exact Q]. }
  split; [exact NH|]. split; [exact NO|]. split; [|split; [exact KO|]; split; [intros k v J; exact (proj2 (A k v J))|exact PO]].
  intros k J. apply in_map_iff in J. destruct J as ([k' v] & <- & J). exact (proj1 (A k' v J)).
Qed.

Lemma file_sizes (r : raster num) h x y cs nd cells : object_header h r x y cs nd -> in_int (r_rows r) -> in_int (r_cols r) -> in_int (r_nlyrs r) -> in_int cells ->
  sizes (file_header h cells) (r_rows r) (r_cols r) (r_nlyrs r) cells.
Proof.
  intros (N & _ & _ & A & B & C & _) IR IC IL IE. unfold sizes. rewrite !(file_header_lookup h cells _ N). repeat (split; [first [reflexivity|exact A|exact B|exact C|assumption]|]). assumption.
Qed.

(** ** Writing *)
Section Objects.
Variables (s : rdt) (feq : num -> num -> bool) (ord : list nat) (saved : nat -> bool) (st : list gfile) (h : smap f64) (own opts : smap bytes) (r : raster num)
  (core filename : bytes) (x y cs nd : f64).
Hypotheses (U : s <> RDT_Unknown) (HD : holds_data r) (G : grid_size (r_rows r) (r_cols r)) (SZ : r_nlyrs r * (r_rows r * r_cols r) <= INT_MAX)
  (OH : object_header h r x y cs nd) (OO : object_options own) (OP : object_options opts) (SO : stores_own_type s own opts).

Definition name_of : bytes := match filename with [] => core | _ => filename end.
Definition fullsize : Z := r_rows r * r_cols r.

Lemma nlyrs_pos' : 1 <= r_nlyrs r.
Proof using HD. destruct HD as [F|[ix F]]; destruct F as (_ & _ & N & _); exact N. Qed.

Lemma sizes_ok : in_int (r_rows r) /\ in_int (r_cols r) /\ in_int (r_nlyrs r) /\ in_int fullsize /\ imul (r_rows r) (r_cols r) = Ok fullsize /\
  imul (r_nlyrs r) fullsize = Ok (r_nlyrs r * fullsize) /\ imul fullsize (r_nlyrs r) = Ok (fullsize * r_nlyrs r) /\ 1 <= fullsize /\ in_int (fullsize * r_nlyrs r).
Proof using HD G SZ.
  destruct G as (A & B & C). pose proof nlyrs_pos' as NL. unfold fullsize. rewrite (imul_ok (r_rows r) (r_cols r)) by lia.
  assert (F : 1 <= r_rows r * r_cols r) by nia. rewrite (imul_ok (r_nlyrs r)) by lia. rewrite (imul_ok (r_rows r * r_cols r)) by lia.
  unfold in_int, INT_MIN, INT_MAX in *. repeat split; try reflexivity; nia.
Qed.

Lemma output_include : exists vs, cell_major r vs /\
  OutputToMongoDB feq s ord saved st h own r core filename opts true =
  let* w := WriteStreamDataAsGridfs s saved st name_of (file_header h fullsize) (Some vs) (Z.of_nat (length vs)) (output_options s own opts true) in
  Ok (fst w, snd w, r, output_options s own opts true).
Proof using HD G SZ OH.
  destruct sizes_ok as (IR & IC & IL & IF & M1 & M2 & M3 & FP & IN). pose proof OH as (_ & _ & _ & A & B & _).
  assert (R1 : (let* d := at_get h K_NROWS in f_int d) = Ok (r_rows r)) by (unfold at_get; change K_NROWS with (str "NROWS"); rewrite A; cbn [obind]; apply f_int_of_int; exact IR).
  assert (C1 : (let* d := at_get h K_NCOLS in f_int d) = Ok (r_cols r)) by (unfold at_get; change K_NCOLS with (str "NCOLS"); rewrite B; cbn [obind]; apply f_int_of_int; exact IC).
  assert (AR : at_get h K_NROWS = Ok (of_int (r_rows r))) by (unfold at_get; change K_NROWS with (str "NROWS"); rewrite A; reflexivity).
  assert (AC : at_get h K_NCOLS = Ok (of_int (r_cols r))) by (unfold at_get; change K_NCOLS with (str "NCOLS"); rewrite B; reflexivity).
  rewrite AR in R1. rewrite AC in C1. cbn [obind] in R1, C1.
  destruct HD as [F|[ix F]].
  - pose proof F as (_ & _ & _ & NC & ST & P1 & P2). destruct (full_array r F) as (vs & D & CM). exists vs. split; [exact CM|].
    unfold OutputToMongoDB. rewrite P1, P2. cbn [isnull negb orb andb obind fst snd]. rewrite P1, P2. cbn [isnull negb orb andb obind fst snd].
    rewrite AR, AC. cbn [obind]. rewrite R1. cbn [obind]. rewrite C1. cbn [obind]. rewrite M1. cbn [obind].
    pose proof (proj1 CM) as LV. fold fullsize in LV. destruct (r_is2d r) eqn:D2.
    + destruct D as (d & ED & NE & ->). rewrite ED. cbn [deref obind]. destruct d as [|c d]; [congruence|]. rewrite NC. fold fullsize. rewrite M2. cbn [obind fst snd].
      unfold file_header. rewrite LV. reflexivity.
    + rewrite D. cbn [obind fst snd]. unfold storage in ST. rewrite D2 in ST. destruct ST as (L1 & _). unfold file_header. rewrite LV, L1, NC. fold fullsize. replace (1 * fullsize) with fullsize by lia. reflexivity.
  - pose proof F as (_ & _ & _ & _ & NI & ST & _ & P1 & P2 & _). destruct (compact_array r ix (r_pos r) F) as (vs & D & CM); [pose proof nlyrs_pos'; unfold fullsize in FP; nia|reflexivity|]. exists vs. split; [exact CM|].
    unfold OutputToMongoDB, GetRasterPositionData. rewrite P2, P1. cbn [isnull negb orb andb obind fst snd]. rewrite P2, P1. cbn [isnull negb orb andb obind fst snd].
    rewrite AR, AC. cbn [obind]. rewrite R1. cbn [obind]. rewrite C1. cbn [obind]. rewrite M1. cbn [obind]. fold fullsize in D. rewrite <- P2. rewrite D. cbn [obind].
    pose proof (proj1 CM) as LV. fold fullsize in LV. destruct (r_is2d r) eqn:D2.
    + rewrite M2. cbn [obind fst snd]. unfold file_header. rewrite LV. reflexivity.
    + cbn [obind fst snd]. unfold storage in ST. rewrite D2 in ST. destruct ST as (L1 & _). unfold file_header. rewrite LV, L1. replace (1 * fullsize) with fullsize by lia. reflexivity.
Qed.
End Objects.
