(** GeoTIFF rasters: theorems. *)
From Coq Require Import ZArith Reals Ascii String List Bool Lia Lra ZifyBool ZifyNat Permutation.
From Flocq Require Import Core BinarySingleNaN.
From Verif Require Import Base ListLib StrModel StrSpec FsModel MapModel RasterModel RasterSpec RasterProofs RasterProofs2 BasicModel FloatModel FloatProofs
  CoordFloatModel TypeModel MongoModel CopyModel AscModel AscSpec CellModel CellSpec CellProofs CellProofs2 GdalModel GdalSpec GdalProofs GdalProofs2 GdalProofs3.
Import ListNotations.
Open Scope Z_scope.

(** For examples: a 2 x 2 header with NoData value [nd]; type, option, cells and
    NoData value (if an integer) of a file. *)
Definition tif_header (nd : f64) : smap f64 :=
  [(str "NCOLS", of_int 2); (str "NROWS", of_int 2); (str "XLLCENTER", of_int 0); (str "YLLCENTER", of_int 3); (str "CELLSIZE", of_int 10); (str "NODATA_VALUE", nd)].
Definition as_type (w : string) : smap bytes := [(str "DATATYPE_OUT", str w)].
Definition told (m : outcome (option tif)) : option (gdt * bool * list num * option Z) :=
  match m with
  | Ok (Some f) => Some (f_type f, f_signed f, f_cells f, match f_nodata f with Some x => match f_int x with Ok z => Some z | _ => None end | None => None end)
  | _ => None
  end.
Definition refuses (m : outcome (option tif)) : bool := match m with Ok None => true | _ => false end.
Definition is_ub {A} (m : outcome A) : bool := match m with UB => true | _ => false end.
Definition half_of (z : Z) : num := VD (fdiv (of_int z) (of_int 2)).
Lemma tif_header_shows nd : header_shows (tif_header nd) 2 2 (of_int 0) (of_int 3) (of_int 10) nd.
Proof. repeat split. Qed.
Lemma tif_grid : grid_size 2 2.
Proof. repeat split; unfold INT_MAX; lia. Qed.
Lemma tif_order : schedule 4 [3; 1; 0; 2]%nat.
Proof.
  unfold schedule. apply NoDup_Permutation; [repeat constructor; cbn; lia|apply seq_NoDup|]. intros i. change (seq 0 (Z.to_nat 4)) with [0; 1; 2; 3]%nat. cbn [In]. lia.
Qed.

(** * C46: writing as an integer type *)

(** Integer cells that fit, or are NoData cells to be replaced: a file of the
    type asked for. Cells that fit are unchanged; NoData cells are NoData cells of
    the file. *)
Theorem C46_accepted : forall g35 g37 s t ord h opts cols rows x y cs nd vs,
  header_shows h cols rows x y cs nd -> grid_size rows cols -> asks opts t ->
  integer_type s -> integer_type t -> available g35 t -> (s = t -> t = RDT_Int8) -> ~ mixed s t ->
  Forall (of_type s) vs -> Z.of_nat (length vs) = rows * cols -> schedule (rows * cols) ord ->
  (forall v, In v vs -> replaced t nd v \/ of_type t v) ->
  exists f nd' ws, WriteSingleGeotiff g35 g37 s ord true true h opts (Some vs) = Ok (Some f) /\
    band_type f t /\ f_nodata f = Some nd' /\ (outside t nd -> nd' = of_int (substitute t)) /\ (~ outside t nd -> nd' = nd) /\
    f_srs f = projection opts /\ file_shows f rows cols ws /\
    Forall2 (fun v w => (replaced t nd v -> w = VI (substitute t)) /\ (~ replaced t nd v -> w = v) /\ (is_nodata nd v -> is_nodata nd' w)) vs ws.
Proof.
  intros g35 g37 s t ord h opts cols rows x y cs nd vs HS G HO KS KT HA HN M FV HL HC OK.
  destruct (limits_some t KT) as (tlo & thi & LT).
  set (g := fun v => match v with VI z => if replacedb nd t v then (VI (substitute t), false) else (VI (wrap (least t) (most t) z), less s (VI z) (least t) tlo || greater s (VI z) (most t) thi) | _ => (v, false) end).
  assert (IV : forall v, In v vs -> exists z, v = VI z /\ fits s z).
  { intros v I. pose proof (proj1 (Forall_forall _ _) FV v I) as T. destruct v; cbn in T; [exists z; tauto| |]; subst s; destruct (KS eq_refl). }
  destruct (write_general g35 g37 s ord h opts cols rows x y cs nd HS G t vs KT HA HN HO HL HC g true true) as [_ W].
  { intros v I. destruct (IV v I) as (z & -> & _). destruct (fit_int s t nd z KT) as (a & b & L & E). rewrite L in LT. injection LT as <- <-. exact E. }
  assert (SH : forall v, In v vs -> (replaced t nd v -> fst (g v) = VI (substitute t)) /\ (~ replaced t nd v -> fst (g v) = v) /\ snd (g v) = false).
  { intros v I. destruct (IV v I) as (z & E & F). specialize (OK v I). subst v. cbn [g]. destruct (replacedb nd t (VI z)) eqn:R.
    - apply replacedb_iff in R. cbn [fst snd]. tauto.
    - assert (NR : ~ replaced t nd (VI z)) by (rewrite <- replacedb_iff; congruence). destruct OK as [X|[_ X]]; [tauto|]. cbn [fst snd].
      rewrite wrap_id by exact X. split; [tauto|]. split; [reflexivity|]. rewrite (legal s t z tlo thi KS F KT M LT). unfold fits in X. lia. }
  eexists _, _, (map (fun v => fst (g v)) vs). split; [apply W; intros (v & I & B); destruct (SH v I) as (_ & _ & C); congruence|].
  split; [apply file_type; exact HA|]. split; [reflexivity|]. 
  split; [intros O; apply outsideb_iff in O; rewrite O; reflexivity|].
  split; [intros O; destruct (outsideb t nd) eqn:B; [apply outsideb_iff in B; tauto|reflexivity]|].
  split; [reflexivity|]. split.
  - apply file_cells. apply Forall_forall. intros w I. apply in_map_iff in I. destruct I as (v & <- & I). destruct (SH v I) as (A & B & _). destruct (replacedb nd t v) eqn:R.
    + rewrite A by (apply replacedb_iff; exact R). apply substitute_fits. exact KT.
    + assert (NR : ~ replaced t nd v) by (rewrite <- replacedb_iff; congruence). rewrite B by exact NR. destruct (OK v I); tauto.
  - assert (QQ : forall v, In v vs -> is_nodata nd v -> is_nodata (if outsideb t nd then of_int (substitute t) else nd) (fst (g v))).
    { intros v I ND. destruct (SH v I) as (A & B & _). destruct (outsideb t nd) eqn:O.
      - rewrite A; [apply substitute_nodata; exact KT|]. split; [exact ND|apply outsideb_iff; exact O].
      - rewrite B; [exact ND|]. intros [_ X]. apply outsideb_iff in X. congruence. }
    clear - SH QQ. induction vs as [|v vs IH]; cbn [map]; constructor.
    + destruct (SH v (or_introl eq_refl)) as (A & B & _). split; [exact A|]. split; [exact B|]. apply QQ. left. reflexivity.
    + apply IH; intros u I; [apply SH|apply QQ]; right; exact I.
Qed.
Print Assumptions C46_accepted.

Example C46_accepted_ex : asks (as_type "UINT8") RDT_UInt8 /\ ~ mixed RDT_Int32 RDT_UInt8 /\ outside RDT_UInt8 (of_int (-9)) /\
  (forall v, In v [VI 5; VI (-9); VI 254; VI 0] -> of_type RDT_Int32 v /\ (replaced RDT_UInt8 (of_int (-9)) v \/ of_type RDT_UInt8 v)) /\
  told (WriteSingleGeotiff true true RDT_Int32 [3; 1; 0; 2]%nat true true (tif_header (of_int (-9))) (as_type "UINT8") (Some [VI 5; VI (-9); VI 254; VI 0])) =
    Some (GDT_Byte, false, [VI 5; VI 255; VI 254; VI 0], Some 255) /\
  told (WriteSingleGeotiff true false RDT_Int32 [3; 1; 0; 2]%nat true true (tif_header (of_int (-9))) (as_type "INT8") (Some [VI 5; VI (-9); VI 127; VI 0])) =
    Some (GDT_Byte, true, [VI 5; VI 247; VI 127; VI 0], Some (-9)).
Proof.
  assert (O : outside RDT_UInt8 (of_int (-9))) by (left; vm_compute; reflexivity).
  split; [eexists; split; reflexivity|]. split; [intros (w & w' & A & _); discriminate|]. split; [exact O|]. split; [|split; vm_compute; reflexivity].
  intros v I. cbn [In] in I. repeat (destruct I as [<-|I]; [|]); try destruct I; (split; [split; [discriminate|vm_compute; split; discriminate]|]);
    try (right; split; [discriminate|vm_compute; split; discriminate]). left. split; [vm_compute; reflexivity|exact O].
Qed.

(** One cell that does not fit and is not replaced: refused. *)
Theorem C46_refused : forall g35 g37 s t ord made moved h opts cols rows x y cs nd vs v,
  header_shows h cols rows x y cs nd -> grid_size rows cols -> asks opts t ->
  integer_type s -> integer_type t -> available g35 t -> (s = t -> t = RDT_Int8) ->
  Forall (of_type s) vs -> Z.of_nat (length vs) = rows * cols -> schedule (rows * cols) ord ->
  In v vs -> ~ replaced t nd v -> ~ of_type t v ->
  WriteSingleGeotiff g35 g37 s ord made moved h opts (Some vs) = Ok None.
Proof.
  intros g35 g37 s t ord made moved h opts cols rows x y cs nd vs v0 HS G HO KS KT HA HN FV HL HC I0 NR0 NF.
  destruct (limits_some t KT) as (tlo & thi & LT).
  set (g := fun v => match v with VI z => if replacedb nd t v then (VI (substitute t), false) else (VI (wrap (least t) (most t) z), less s (VI z) (least t) tlo || greater s (VI z) (most t) thi) | _ => (v, false) end).
  assert (IV : forall v, In v vs -> exists z, v = VI z /\ fits s z).
  { intros v I. pose proof (proj1 (Forall_forall _ _) FV v I) as T. destruct v; cbn in T; [exists z; tauto| |]; subst s; destruct (KS eq_refl). }
  destruct (write_general g35 g37 s ord h opts cols rows x y cs nd HS G t vs KT HA HN HO HL HC g made moved) as [W _].
  { intros v I. destruct (IV v I) as (z & -> & _). destruct (fit_int s t nd z KT) as (a & b & L & E). rewrite L in LT. injection LT as <- <-. exact E. }
  apply W. exists v0. split; [exact I0|]. destruct (IV v0 I0) as (z & -> & F). cbn [g].
  destruct (replacedb nd t (VI z)) eqn:R; [apply replacedb_iff in R; tauto|]. cbn [snd].
  assert (D : {mixed s t} + {~ mixed s t}).
  { unfold mixed. destruct (int_kind s) as [[w []]|] eqn:E1; try (right; intros (a & b & A & _); congruence).
    destruct (int_kind t) as [[w' []]|] eqn:E2; try (right; intros (a & b & _ & _ & A & _); congruence).
    destruct (Z_le_dec 32 w); [|right; intros (a & b & A & B & _); injection A as <-; lia].
    destruct (Z_le_dec w' w); [left; exists w, w'; auto|right; intros (a & b & A & _ & B & C); injection A as <-; injection B as <-; lia]. }
  destruct D as [D|D]; [apply (illegal s t z tlo thi D F LT)|]. rewrite (legal s t z tlo thi KS F KT D LT).
  cbn in NF. unfold fits in NF. assert (~ (least t <= z <= most t)) by tauto. lia.
Qed.
Print Assumptions C46_refused.

Example C46_refused_ex : ~ replaced RDT_UInt8 (of_int (-9)) (VI 256) /\ ~ of_type RDT_UInt8 (VI 256) /\
  refuses (WriteSingleGeotiff true true RDT_Int32 [3; 1; 0; 2]%nat true true (tif_header (of_int (-9))) (as_type "UINT8") (Some [VI 5; VI (-9); VI 256; VI 0])) = true.
Proof.
  split; [intros [A _]; vm_compute in A; discriminate|]. split; [intros [_ A]; unfold fits in A; vm_compute in A; destruct A as [_ A]; apply A; reflexivity|]. vm_compute. reflexivity.
Qed.

(** A signed type not wider than the unsigned type of the cells: the least value
    of the type is compared as an unsigned number, and everything is refused. *)
Theorem C46_unsigned_refuted : forall g35 g37 s t ord made moved h opts cols rows x y cs nd vs v,
  header_shows h cols rows x y cs nd -> grid_size rows cols -> asks opts t -> mixed s t -> available g35 t ->
  Forall (of_type s) vs -> Z.of_nat (length vs) = rows * cols -> schedule (rows * cols) ord ->
  In v vs -> ~ replaced t nd v ->
  WriteSingleGeotiff g35 g37 s ord made moved h opts (Some vs) = Ok None.
Proof.
  intros g35 g37 s t ord made moved h opts cols rows x y cs nd vs v0 HS G HO M HA FV HL HC I0 NR0.
  pose proof M as (w & w' & K1 & _ & K2 & _).
  assert (KS : integer_type s) by (unfold integer_type; congruence). assert (KT : integer_type t) by (unfold integer_type; congruence).
  assert (HN : s = t -> t = RDT_Int8) by (intros ->; congruence).
  destruct (limits_some t KT) as (tlo & thi & LT).
  set (g := fun v => match v with VI z => if replacedb nd t v then (VI (substitute t), false) else (VI (wrap (least t) (most t) z), less s (VI z) (least t) tlo || greater s (VI z) (most t) thi) | _ => (v, false) end).
  assert (IV : forall v, In v vs -> exists z, v = VI z /\ fits s z).
  { intros v I. pose proof (proj1 (Forall_forall _ _) FV v I) as T. destruct v; cbn in T; [exists z; tauto| |]; subst s; destruct (KS eq_refl). }
  destruct (write_general g35 g37 s ord h opts cols rows x y cs nd HS G t vs KT HA HN HO HL HC g made moved) as [W _].
  { intros v I. destruct (IV v I) as (z & -> & _). destruct (fit_int s t nd z KT) as (a & b & L & E). rewrite L in LT. injection LT as <- <-. exact E. }
  apply W. exists v0. split; [exact I0|]. destruct (IV v0 I0) as (z & -> & F). cbn [g].
  destruct (replacedb nd t (VI z)) eqn:R; [apply replacedb_iff in R; tauto|]. apply (illegal s t z tlo thi M F LT).
Qed.
Print Assumptions C46_unsigned_refuted.

Example C46_unsigned_ex : mixed RDT_UInt32 RDT_Int16 /\ Forall (of_type RDT_Int16) [VI 1; VI 2; VI 3; VI 4] /\
  refuses (WriteSingleGeotiff true true RDT_UInt32 [3; 1; 0; 2]%nat true true (tif_header (of_int 9)) (as_type "INT16") (Some [VI 1; VI 2; VI 3; VI 4])) = true.
Proof.
  split; [exists 32, 16; repeat split; lia|]. split; [|vm_compute; reflexivity]. repeat constructor; try discriminate; vm_compute; discriminate.
Qed.

(** Collision: a cell that happens to hold the substitute becomes a NoData cell. *)
Theorem C46_collision : forall g35 g37 s t ord h opts cols rows x y cs nd vs k,
  header_shows h cols rows x y cs nd -> grid_size rows cols -> asks opts t ->
  integer_type s -> integer_type t -> available g35 t -> (s = t -> t = RDT_Int8) -> ~ mixed s t ->
  Forall (of_type s) vs -> Z.of_nat (length vs) = rows * cols -> schedule (rows * cols) ord ->
  (forall v, In v vs -> replaced t nd v \/ of_type t v) ->
  outside t nd -> nth_error vs k = Some (VI (substitute t)) -> ~ is_nodata nd (VI (substitute t)) ->
  exists f nd' w, WriteSingleGeotiff g35 g37 s ord true true h opts (Some vs) = Ok (Some f) /\
    f_nodata f = Some nd' /\ shown f k = Some w /\ is_nodata nd' w.
Proof.
  intros g35 g37 s t ord h opts cols rows x y cs nd vs k HS G HO KS KT HA HN M FV HL HC OK O E N.
  destruct (C46_accepted g35 g37 s t ord h opts cols rows x y cs nd vs HS G HO KS KT HA HN M FV HL HC OK)
    as (f & nd' & ws & W & _ & ND & NO & _ & _ & (_ & _ & _ & SH) & F2).
  exists f, nd', (VI (substitute t)). split; [exact W|]. split; [exact ND|]. rewrite SH.
  split; [|rewrite (NO O); apply substitute_nodata; exact KT].
  clear - F2 E N. revert k E. induction F2 as [|v w vs ws (A & B & _) F2 IH]; intros [|k] E; cbn in E |- *; try discriminate; [|apply IH; exact E].
  injection E as ->. f_equal. apply B. intros [X _]. tauto.
Qed.
Print Assumptions C46_collision.

Example C46_collision_ex : outside RDT_UInt8 (of_int (-9)) /\ ~ is_nodata (of_int (-9)) (VI (substitute RDT_UInt8)) /\
  told (WriteSingleGeotiff true true RDT_Int32 [3; 1; 0; 2]%nat true true (tif_header (of_int (-9))) (as_type "UINT8") (Some [VI 5; VI (-9); VI 255; VI 0])) =
    Some (GDT_Byte, false, [VI 5; VI 255; VI 255; VI 0], Some 255).
Proof. split; [left; vm_compute; reflexivity|]. split; [intros A; vm_compute in A; discriminate|]. vm_compute. reflexivity. Qed.

(** Written as the type they have, cells and NoData value are unchanged. *)
Theorem C46_same : forall g35 g37 s ord h opts cols rows x y cs nd vs,
  header_shows h cols rows x y cs nd -> grid_size rows cols -> asks_nothing opts \/ asks opts s -> available g35 s -> s <> RDT_Int8 ->
  Forall (of_type s) vs -> Z.of_nat (length vs) = rows * cols ->
  exists f, WriteSingleGeotiff g35 g37 s ord true true h opts (Some vs) = Ok (Some f) /\
    band_type f s /\ f_nodata f = Some nd /\ f_srs f = projection opts /\ file_shows f rows cols vs.
Proof.
  intros g35 g37 s ord h opts cols rows x y cs nd vs HS G HO HA N8 FV HL.
  assert (SB : signed_bytes g37 s = false) by (destruct s; try reflexivity; congruence).
  exists (file_of g35 g37 opts cols rows x y cs s (signed_bytes g37 s) nd vs). split; [|split; [apply file_type; exact HA|split; [reflexivity|split; [reflexivity|apply file_cells; exact FV]]]].
  rewrite (write_eq g35 g37 s ord h opts cols rows x y cs nd HS G true true (Some vs) _ eq_refl).
  rewrite output_same; [|apply HA|destruct HO as [A|A]; [left; apply asks_no_type; exact A|right; split; [apply asks_type; exact A|exact N8]]].
  cbn [obind option_map negb orb]. rewrite (known_band' g35 g37 s HA). rewrite transfer_all by exact HL. cbn [obind]. rewrite SB. reflexivity.
Qed.
Print Assumptions C46_same.

Example C46_same_ex : asks_nothing [] /\ available false RDT_UInt16 /\
  told (WriteSingleGeotiff false false RDT_UInt16 [] true true (tif_header (of_int 65535)) [] (Some [VI 5; VI 65535; VI 7; VI 0])) =
    Some (GDT_UInt16, false, [VI 5; VI 65535; VI 7; VI 0], Some 65535).
Proof. split; [reflexivity|]. split; [split; [discriminate|intros [A|A]; discriminate]|]. vm_compute. reflexivity. Qed.

(** Without a type asked for, signed bytes are written as unsigned ones by GDAL
    before 3.7: negative cells change. *)
Theorem C46_bytes_refuted : forall g35 ord h opts cols rows x y cs nd vs,
  header_shows h cols rows x y cs nd -> grid_size rows cols -> asks_nothing opts ->
  Forall (of_type RDT_Int8) vs -> Z.of_nat (length vs) = rows * cols ->
  exists f, WriteSingleGeotiff g35 false RDT_Int8 ord true true h opts (Some vs) = Ok (Some f) /\
    band_type f RDT_UInt8 /\ f_nodata f = Some nd /\
    forall i z, nth_error vs i = Some (VI z) -> shown f i = Some (VI (if z <? 0 then z + 256 else z)).
Proof.
  intros g35 ord h opts cols rows x y cs nd vs HS G HO FV HL.
  exists (file_of g35 false opts cols rows x y cs RDT_Int8 false nd vs). split; [|split; [split; reflexivity|split; [reflexivity|]]].
  - rewrite (write_eq g35 false RDT_Int8 ord h opts cols rows x y cs nd HS G true true (Some vs) _ (asks_no_type opts HO)).
    rewrite output_same; [|discriminate|left; reflexivity]. cbn [obind option_map negb orb CvtToGDALDataType]. rewrite transfer_all by exact HL. reflexivity.
  - intros i z E. unfold shown, file_of. cbn [f_cells f_signed CvtToGDALDataType]. rewrite nth_error_map, E. cbn [option_map stored_as andb]. do 2 f_equal.
    pose proof (proj1 (Forall_forall _ _) FV _ (nth_error_In _ _ E)) as [_ B]. bounds B. unfold wrap. change (255 - 0 + 1) with 256.
    destruct (Z.ltb_spec z 0); [|rewrite Z.mod_small by lia; lia]. rewrite <- (Z.mod_add _ 1) by lia. rewrite Z.mod_small by lia. lia.
Qed.
Print Assumptions C46_bytes_refuted.

Example C46_bytes_ex :
  told (WriteSingleGeotiff true false RDT_Int8 [] true true (tif_header (of_int (-9))) [] (Some [VI 5; VI (-9); VI 7; VI 0])) =
    Some (GDT_Byte, false, [VI 5; VI 247; VI 7; VI 0], Some (-9)).
Proof. vm_compute. reflexivity. Qed.

(** Floating cells within the range: cut to integers. *)
Theorem C46_floating : forall g35 g37 s t ord h opts cols rows x y cs nd vs,
  header_shows h cols rows x y cs nd -> grid_size rows cols -> asks opts t ->
  floating_type s -> integer_type t -> available g35 t ->
  Forall (of_type s) vs -> Z.of_nat (length vs) = rows * cols -> schedule (rows * cols) ord ->
  (forall v, In v vs -> replaced t nd v \/ exists r, real_of v = Some r /\ (IZR (least t) <= r <= IZR (most t))%R) ->
  exists f nd' ws, WriteSingleGeotiff g35 g37 s ord true true h opts (Some vs) = Ok (Some f) /\
    band_type f t /\ f_nodata f = Some nd' /\ (outside t nd -> nd' = of_int (substitute t)) /\ (~ outside t nd -> nd' = nd) /\
    file_shows f rows cols ws /\
    Forall2 (fun v w => (replaced t nd v -> w = VI (substitute t)) /\ (~ replaced t nd v -> exists r, real_of v = Some r /\ w = VI (Ztrunc r))) vs ws.
Proof.
  intros g35 g37 s t ord h opts cols rows x y cs nd vs HS G HO KS KT HA FV HL HC OK.
  assert (HN : s = t -> t = RDT_Int8) by (intros ->; destruct KS; subst; destruct (KT eq_refl)).
  set (g := fun v => if replacedb nd t v then (VI (substitute t), false) else (match real_of v with Some r => VI (Ztrunc r) | None => v end, false)).
  assert (IV : forall v, In v vs -> is_floating v).
  { intros v I. pose proof (proj1 (Forall_forall _ _) FV v I) as T. destruct v; cbn in T |- *; auto. destruct T as [T _]. destruct KS as [-> | ->]; apply T; reflexivity. }
  destruct (write_general g35 g37 s ord h opts cols rows x y cs nd HS G t vs KT HA HN HO HL HC g true true) as [_ W].
  { intros v I. destruct (fit_floating s t nd v KT (IV v I)) as [A B]. unfold g. destruct (replacedb nd t v) eqn:R; [apply A; reflexivity|].
    destruct (B eq_refl) as (B1 & _). destruct (OK v I) as [X|(r & E & L)]; [apply replacedb_iff in X; congruence|]. rewrite E. apply B1; assumption. }
  assert (SH : forall v, In v vs -> (replaced t nd v -> fst (g v) = VI (substitute t)) /\ (~ replaced t nd v -> exists r, real_of v = Some r /\ fst (g v) = VI (Ztrunc r) /\ (IZR (least t) <= r <= IZR (most t))%R)).
  { intros v I. unfold g. destruct (replacedb nd t v) eqn:R.
    - apply replacedb_iff in R. split; [reflexivity|tauto].
    - assert (NR : ~ replaced t nd v) by (rewrite <- replacedb_iff; congruence). split; [tauto|]. intros _. destruct (OK v I) as [X|(r & E & L)]; [tauto|].
      exists r. rewrite E. auto. }
  eexists _, _, (map (fun v => fst (g v)) vs). split; [apply W; intros (v & I & B); unfold g in B; destruct (replacedb nd t v); discriminate|].
  split; [apply file_type; exact HA|]. split; [reflexivity|]. 
  split; [intros O; apply outsideb_iff in O; rewrite O; reflexivity|].
  split; [intros O; destruct (outsideb t nd) eqn:B; [apply outsideb_iff in B; tauto|reflexivity]|]. split.
  - apply file_cells. apply Forall_forall. intros w I. apply in_map_iff in I. destruct I as (v & <- & I). destruct (SH v I) as (A & B). destruct (replacedb nd t v) eqn:R.
    + rewrite A by (apply replacedb_iff; exact R). apply substitute_fits. exact KT.
    + assert (NR : ~ replaced t nd v) by (rewrite <- replacedb_iff; congruence). destruct (B NR) as (r & _ & -> & L). split; [exact KT|]. unfold fits.
      apply trunc_between; [apply around_zero|]. rewrite minus_IZR, plus_IZR. lra.
  - clear - SH. induction vs as [|v vs IH]; cbn [map]; constructor.
    + destruct (SH v (or_introl eq_refl)) as (A & B). split; [exact A|]. intros N. destruct (B N) as (r & E1 & E2 & _). exists r. auto.
    + apply IH; intros u I. apply SH; right; exact I.
Qed.
Print Assumptions C46_floating.

Example C46_floating_ex :
  told (WriteSingleGeotiff true true RDT_Double [3; 1; 0; 2]%nat true true (tif_header (of_int (-9))) (as_type "UINT8") (Some [half_of 11; half_of (-18); half_of 509; half_of 0])) =
    Some (GDT_Byte, false, [VI 5; VI 255; VI 254; VI 0], Some 255).
Proof. vm_compute. reflexivity. Qed.

(** Just outside, where the cast is still defined: refused. *)
Theorem C46_floating_refused : forall g35 g37 s t ord made moved h opts cols rows x y cs nd vs v,
  header_shows h cols rows x y cs nd -> grid_size rows cols -> asks opts t ->
  floating_type s -> integer_type t -> available g35 t ->
  Forall (of_type s) vs -> Z.of_nat (length vs) = rows * cols -> schedule (rows * cols) ord ->
  (forall v, In v vs -> replaced t nd v \/ exists r, real_of v = Some r /\ (IZR (least t) - 1 < r < IZR (most t) + 1)%R) ->
  In v vs -> ~ replaced t nd v -> (forall r, real_of v = Some r -> r < IZR (least t) \/ IZR (most t) < r)%R ->
  WriteSingleGeotiff g35 g37 s ord made moved h opts (Some vs) = Ok None.
Proof.
  intros g35 g37 s t ord made moved h opts cols rows x y cs nd vs v0 HS G HO KS KT HA FV HL HC OK I0 NR0 B0.
  assert (HN : s = t -> t = RDT_Int8) by (intros ->; destruct KS; subst; destruct (KT eq_refl)).
  assert (OK' : forall v, In v vs -> replaced t nd v \/ exists r, real_of v = Some r /\ (IZR (least t - 1) < r < IZR (most t + 1))%R).
  { intros v I. destruct (OK v I) as [X|(r & E & L)]; [left; exact X|right; exists r]. rewrite minus_IZR, plus_IZR. auto. }
  set (inr := fun r => (Rle_bool (IZR (least t)) r && Rle_bool r (IZR (most t)))).
  assert (IR : forall r, inr r = true <-> (IZR (least t) <= r <= IZR (most t))%R).
  { intros r. unfold inr. rewrite andb_true_iff. split; intros [A B]; split.
    - destruct (Rle_bool_spec (IZR (least t)) r); [assumption|discriminate].
    - destruct (Rle_bool_spec r (IZR (most t))); [assumption|discriminate].
    - apply Rle_bool_true; exact A. - apply Rle_bool_true; exact B. }
  set (g := fun v => if replacedb nd t v then (VI (substitute t), false) else match real_of v with Some r => (VI (Ztrunc r), negb (inr r)) | None => (v, false) end).
  assert (IV : forall v, In v vs -> is_floating v).
  { intros v I. pose proof (proj1 (Forall_forall _ _) FV v I) as T. destruct v; cbn in T |- *; auto. destruct T as [T _]. destruct KS as [-> | ->]; apply T; reflexivity. }
  destruct (write_general g35 g37 s ord h opts cols rows x y cs nd HS G t vs KT HA HN HO HL HC g made moved) as [W _].
  { intros v I. destruct (fit_floating s t nd v KT (IV v I)) as [A B]. unfold g. destruct (replacedb nd t v) eqn:R; [apply A; reflexivity|].
    destruct (B eq_refl) as (B1 & B2 & _). destruct (OK' v I) as [X|(r & E & L)]; [apply replacedb_iff in X; congruence|]. rewrite E.
    destruct (inr r) eqn:Q; cbn [negb]; [apply B1; [exact E|apply IR; exact Q]|apply B2; [exact E|exact L|rewrite <- IR; congruence]]. }
  apply W. exists v0. split; [exact I0|]. unfold g. destruct (replacedb nd t v0) eqn:R; [apply replacedb_iff in R; tauto|].
  destruct (OK v0 I0) as [X|(r & E & L)]; [tauto|]. rewrite E. cbn [snd]. destruct (inr r) eqn:Q; [|reflexivity]. apply IR in Q. specialize (B0 r E). lra.
Qed.
Print Assumptions C46_floating_refused.

Example C46_floating_refused_ex :
  refuses (WriteSingleGeotiff true true RDT_Double [3; 1; 0; 2]%nat true true (tif_header (of_int (-9))) (as_type "UINT8") (Some [half_of 11; half_of (-18); half_of 511; half_of 0])) = true.
Proof. vm_compute. reflexivity. Qed.

(** Further outside, or not a number: undefined behaviour instead of a refusal. *)
Theorem C46_floating_refuted : forall g35 g37 s t ord made moved h opts cols rows x y cs nd vs v,
  header_shows h cols rows x y cs nd -> grid_size rows cols -> asks opts t ->
  floating_type s -> integer_type t -> available g35 t ->
  Forall (of_type s) vs -> Z.of_nat (length vs) = rows * cols -> schedule (rows * cols) ord ->
  In v vs -> ~ replaced t nd v -> (forall r, real_of v = Some r -> r <= IZR (least t) - 1 \/ IZR (most t) + 1 <= r)%R ->
  WriteSingleGeotiff g35 g37 s ord made moved h opts (Some vs) = UB.
Proof.
  intros g35 g37 s t ord made moved h opts cols rows x y cs nd vs v0 HS G HO KS KT HA FV HL HC I0 NR0 B0.
  assert (HN : s = t -> t = RDT_Int8) by (intros ->; destruct KS; subst; destruct (KT eq_refl)).
  assert (IV : forall v, In v vs -> is_floating v).
  { intros v I. pose proof (proj1 (Forall_forall _ _) FV v I) as T. destruct v; cbn in T |- *; auto. destruct T as [T _]. destruct KS as [-> | ->]; apply T; reflexivity. }
  rewrite (write_fit g35 g37 s ord h opts cols rows x y cs nd HS G t vs KT HA HN HO made moved), fit_cells_body.
  rewrite (loop_ub _ vs ord (rows * cols) v0); auto.
  - intros v I. unfold fit_cell. destruct (_ && _); [right; eauto|]. destruct (limits_some t KT) as (tlo & thi & E). rewrite E.
    rewrite cvt_floating by auto. unfold cast_int. destruct (is_finite _); [|left; reflexivity]. destruct (_ && _); [right; eexists; reflexivity|left; reflexivity].
  - apply (fit_floating s t nd v0 KT (IV v0 I0)).
    + destruct (replacedb nd t v0) eqn:R; [apply replacedb_iff in R; tauto|reflexivity].
    + intros r E. specialize (B0 r E). rewrite minus_IZR, plus_IZR. lra.
Qed.
Print Assumptions C46_floating_refuted.

Example C46_floating_refuted_ex :
  is_ub (WriteSingleGeotiff true true RDT_Double [3; 1; 0; 2]%nat true true (tif_header (of_int (-9))) (as_type "UINT8") (Some [half_of 11; half_of (-18); half_of 512; half_of 0])) = true /\
  is_ub (WriteSingleGeotiff true true RDT_Double [3; 1; 0; 2]%nat true true (tif_header (of_int (-9))) (as_type "UINT8") (Some [half_of 11; VD B754_nan; half_of 5; half_of 0])) = true.
Proof. split; vm_compute; reflexivity. Qed.

(** A NoData value inside the range that is not an integer: the NoData cells are
    cut, and the file records a value that none of its cells has. *)
Theorem C46_nodata_refuted : forall g35 g37 s t ord h opts cols rows x y cs nd vs k v,
  header_shows h cols rows x y cs nd -> grid_size rows cols -> asks opts t ->
  floating_type s -> integer_type t -> available g35 t ->
  Forall (of_type s) vs -> Z.of_nat (length vs) = rows * cols -> schedule (rows * cols) ord ->
  (forall v, In v vs -> exists r, real_of v = Some r /\ (IZR (least t) <= r <= IZR (most t))%R) ->
  ~ outside t nd -> is_finite nd = true -> Z.abs (Ztrunc (B2R nd)) <= 2 ^ 53 -> (tiny <= Rabs (IZR (Ztrunc (B2R nd)) - B2R nd))%R ->
  nth_error vs k = Some v -> real_of v = Some (B2R nd) ->
  exists f w, WriteSingleGeotiff g35 g37 s ord true true h opts (Some vs) = Ok (Some f) /\
    is_nodata nd v /\ f_nodata f = Some nd /\ shown f k = Some w /\ ~ is_nodata nd w.
Proof.
  intros g35 g37 s t ord h opts cols rows x y cs nd vs k v HS G HO KS KT HA FV HL HC OK O FN BN TN E EV.
  destruct (C46_floating g35 g37 s t ord h opts cols rows x y cs nd vs HS G HO KS KT HA FV HL HC) as (f & nd' & ws & W & _ & ND & _ & NO & (_ & _ & _ & SH) & F2).
  { intros u I. right. apply OK. exact I. }
  exists f, (VI (Ztrunc (B2R nd))). split; [exact W|]. rewrite ND, (NO O). split; [|split; [reflexivity|split]].
  - assert (FL : is_floating v). { pose proof (proj1 (Forall_forall _ _) FV v (nth_error_In _ _ E)) as T. destruct v; cbn in T |- *; auto. destruct T as [T _]. destruct KS as [-> | ->]; apply T; reflexivity. }
    destruct (real_double v _ FL EV) as [A B]. apply FloatEqual_same; auto.
  - rewrite SH. clear - F2 E EV O. revert k E. induction F2 as [|a b vs ws (_ & B) F2 IH]; intros [|k] E; cbn in E |- *; try discriminate; [|apply IH; exact E].
    injection E as ->. destruct B as (r & R & ->); [intros [_ X]; tauto|]. congruence.
  - unfold is_nodata. cbn [as_double]. intros Q. destruct (of_int_exact _ BN) as [F1 E1]. apply FloatEqual_close in Q; auto. rewrite E1 in Q. lra.
Qed.
Print Assumptions C46_nodata_refuted.

Example C46_nodata_ex : ~ outside RDT_UInt8 (fdiv (of_int 3) (of_int 2)) /\
  is_nodata (fdiv (of_int 3) (of_int 2)) (half_of 3) /\ ~ is_nodata (fdiv (of_int 3) (of_int 2)) (VI 1) /\
  told (WriteSingleGeotiff true true RDT_Double [3; 1; 0; 2]%nat true true (tif_header (fdiv (of_int 3) (of_int 2))) (as_type "UINT8") (Some [half_of 11; half_of 3; half_of 5; half_of 0])) =
    Some (GDT_Byte, false, [VI 5; VI 1; VI 2; VI 0], Some 1).
Proof.
  split; [intros [A|A]; vm_compute in A; discriminate|]. split; [vm_compute; reflexivity|]. split; [intros A; vm_compute in A; discriminate|]. vm_compute. reflexivity.
Qed.
