(** C155: the raster data types of C++ types. *)
From Coq Require Import ZArith Bool List Lia String.
From Verif Require Import Base BasicModel StrModel MapModel FloatModel CoordFloatModel TypeModel CopyModel AscModel CellModel GdalModel CTypeModel CTypeSpec.
Import ListNotations.
Open Scope Z_scope.

(** ** C155. The data type of a standard integer type up to long has exactly the values of
    the type; a new raster of such cells, unsigned long apart, gets as NoData an end of them. *)
Theorem C155_integers : forall t w, width t = Some w -> t <> C_llong -> t <> C_ullong ->
  int_range (TypeToRasterDataType t) = Some (least w, most w) /\
  (t <> C_ulong -> new_nodata t (least w) (most w) = Ok (if snd w then least w else most w)).
Proof.
  intros t w W L U. destruct t; cbn in W; try discriminate W; try congruence; injection W as <-; (split; [vm_compute; reflexivity|]); intros X; try congruence; vm_compute; reflexivity.
Qed.
Print Assumptions C155_integers.

(** Converted to the data type of its cell type, every value stays the same. *)
Theorem C155_values :
  (forall t w z, width t = Some w -> t <> C_llong -> t <> C_ullong -> least w <= z <= most w -> cvt (TypeToRasterDataType t) (VI z) = Ok (VI z)) /\
  (forall x, cvt (TypeToRasterDataType C_float) (VF x) = Ok (VF x)) /\ (forall x, cvt (TypeToRasterDataType C_double) (VD x) = Ok (VD x)).
Proof.
  split; [|split; reflexivity]. intros t w z W L U B. destruct (C155_integers t w W L U) as [R _].
  assert (K : cvt (TypeToRasterDataType t) (VI z) = Ok (VI (wrap (least w) (most w) z))) by (unfold cvt; rewrite R; destruct (TypeToRasterDataType t); try reflexivity; discriminate R).
  rewrite K. unfold wrap. rewrite Z.mod_small by lia. do 2 f_equal. lia.
Qed.
Print Assumptions C155_values.

(** Types with the same values have the same data type, as far as they have one. *)
Theorem C155_same : forall t u w, width t = Some w -> width u = Some w ->
  TypeToRasterDataType t <> RDT_Unknown -> TypeToRasterDataType u <> RDT_Unknown -> TypeToRasterDataType t = TypeToRasterDataType u.
Proof.
  intros t u w W1 W2. destruct t; cbn in W1; try discriminate W1; injection W1 as <-; destruct u; cbn in W2; try discriminate W2; vm_compute; congruence.
Qed.
Print Assumptions C155_same.

(** Expected of long long: the same as of long, which has the same values. Not so: a raster of
    such cells cannot be written as GeoTIFF without an option for the type, whatever the rest;
    NoData is -9999, and undefined for the unsigned type. *)
Theorem C155_llong_refuted : forall t w g35 g37 ord made moved h opts values f, t = C_llong \/ t = C_ullong -> width t = Some w ->
  lookup opts (str "DATATYPE_OUT"%string) = None ->
  WriteSingleGeotiff g35 g37 (TypeToRasterDataType t) ord made moved h opts values = Ok f ->
  f = None /\ (exists u, width u = Some w /\ int_range (TypeToRasterDataType u) = Some (least w, most w)) /\
  new_nodata t (least w) (most w) = if snd w then Ok (-9999) else UB.
Proof.
  intros t w g35 g37 ord made moved h opts values f T W O E. split.
  - assert (K : TypeToRasterDataType t = RDT_Unknown) by (destruct T as [-> | ->]; vm_compute; reflexivity). rewrite K in E. unfold WriteSingleGeotiff, RasterDataTypeInOptionals, K_OUTTYPE in E. rewrite O in E.
    destruct (at_get h K_NROWS) as [a| |]; cbn [obind] in E; try discriminate E. destruct (f_int a) as [rows| |]; cbn [obind] in E; try discriminate E.
    destruct (at_get h K_NCOLS) as [b| |]; cbn [obind] in E; try discriminate E. destruct (f_int b) as [cols| |]; cbn [obind] in E; try discriminate E.
    destruct (at_get h K_NODATA) as [nd| |]; cbn [obind] in E; try discriminate E. destruct (imul cols rows) as [n| |]; cbn [obind] in E; try discriminate E.
    unfold output_array in E. cbn [orb obind] in E. injection E as <-. reflexivity.
  - destruct T as [-> | ->]; cbn in W; injection W as <-; (split; [|vm_compute; reflexivity]); [exists C_long|exists C_ulong]; split; vm_compute; reflexivity.
Qed.
Print Assumptions C155_llong_refuted.

Example C155_ex : new_nodata C_short (-32768) 32767 = Ok (-32768) /\ TypeToRasterDataType C_long = RDT_Int64 /\ TypeToRasterDataType C_llong = RDT_Unknown /\
  TypeToRasterDataType C_float = RDT_Float /\ TypeToRasterDataType C_double = RDT_Double.
Proof. repeat split; vm_compute; reflexivity. Qed.
(** One cell of type long long, and one of type long. *)
Definition ct_header : smap f64 :=
  [(str "NROWS", of_int 1); (str "NCOLS", of_int 1); (str "XLLCENTER", of_int 0); (str "YLLCENTER", of_int 0); (str "CELLSIZE", of_int 10); (str "NODATA_VALUE", of_int (-9999))].
Definition ct_write (t : ctype) : outcome bool :=
  match WriteSingleGeotiff true true (TypeToRasterDataType t) [0%nat] true true ct_header [] (Some [VI 5]) with
  | Ok None => Ok false | Ok (Some _) => Ok true | UB => UB | Throw => Throw end.
Example C155_llong_ex : ct_write C_llong = Ok false /\ ct_write C_ullong = Ok false /\ ct_write C_long = Ok true.
Proof. repeat split; vm_compute; reflexivity. Qed.
