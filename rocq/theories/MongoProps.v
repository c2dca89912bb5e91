(** C50 boolean metadata, C51 dates, C52 bucket names, C71 text options. *)
From Coq Require Import ZArith Reals Ascii String List Bool Lia Lra.
From Flocq Require Import Core BinarySingleNaN.
From Verif Require Import Base StrModel StrSpec StrProofs FloatModel FloatProofs RasterModel TimeModel CoordFloatModel MongoModel MongoProofs MapModel MapProofs.
Import ListNotations.
Open Scope Z_scope.

(** C50. An integer field reads as true exactly when it is 0 ... *)
Theorem C50_int : forall d key z v,
  bson_find d key = Some v -> v = BInt32 z \/ v = BInt64 z ->
  GetBoolFromBson d key = (z =? 0).
Proof. intros d key z v F [-> | ->]; unfold GetBoolFromBson; rewrite F; apply bool_int. Qed.
Print Assumptions C50_int.

(** ... a [double] field of size at least 1 reads as false, a zero as true ... *)
Theorem C50_double : forall d key x,
  bson_find d key = Some (BDouble x) -> is_finite x = true ->
  (B2R x = 0%R -> GetBoolFromBson d key = true) /\
  ((1 <= Rabs (B2R x))%R -> GetBoolFromBson d key = false).
Proof. intros d key x F H. unfold GetBoolFromBson. rewrite F. exact (bool_double x H). Qed.
Print Assumptions C50_double.

(** ... while a text reads as true exactly when it is TRUE up to case; anything
    else, and a missing field, reads as false. *)
Theorem C50_text : forall d key s,
  bson_find d key = Some (BUtf8 s) ->
  (GetBoolFromBson d key = true <-> Forall2 same_letter s (str "TRUE")).
Proof. intros d key s F. unfold GetBoolFromBson. rewrite F. apply StringMatch_iff. Qed.
Print Assumptions C50_text.

Theorem C50_missing : forall d key, bson_find d key = None -> GetBoolFromBson d key = false.
Proof. intros d key F. unfold GetBoolFromBson. rewrite F. reflexivity. Qed.
Print Assumptions C50_missing.

(** Numbers therefore do not mean what they should. *)
Theorem C50_refuted : exists d key z, in_int z /\ bson_find d key = Some (BInt32 z) /\ GetBoolFromBson d key <> negb (z =? 0).
Proof. exists [(str "k", BInt32 1)], (str "k"), 1. split; [unfold in_int, INT_MIN, INT_MAX; lia|]. vm_compute. split; [reflexivity|discriminate]. Qed.
Print Assumptions C50_refuted.

Example C50_ex : GetBoolFromBson [(str "a", BInt64 (-7)); (str "b", BInt32 0); (str "c", BUtf8 (str "True"))] (str "a") = false /\
  GetBoolFromBson [(str "a", BInt64 (-7)); (str "b", BInt32 0)] (str "b") = true /\
  GetBoolFromBson [(str "c", BUtf8 (str "True"))] (str "c") = true.
Proof. vm_compute. auto. Qed.

(** C51. Dates: the milliseconds divided by 1000 (toward zero), cut to 32 bits,
    unless there are fewer than three characters to cut off. *)
Theorem C51_date : forall d key ms,
  bson_find d key = Some (BDate ms) -> in_long ms -> 100 <= ms \/ ms <= -10 ->
  in_int (Z.quot ms 1000) ->
  GetDatetimeFromBson d key = Some (Ok (Z.quot ms 1000)).
Proof.
  intros d key ms F HL HR HI. unfold GetDatetimeFromBson. rewrite F. cbn [GetDatetimeFromBsonIterator].
  rewrite (date_text ms HL). replace ((-10 <? ms) && (ms <? 100)) with false by lia. rewrite wrap32_id by exact HI. reflexivity.
Qed.
Print Assumptions C51_date.

(** In particular every date from the epoch to the end of 32-bit time, from the
    first full second on. *)
Theorem C51_since_epoch : forall d key ms,
  bson_find d key = Some (BDate ms) -> 1000 <= ms < 2147483648000 ->
  GetDatetimeFromBson d key = Some (Ok (ms / 1000)).
Proof.
  intros d key ms F H. rewrite <- Z.quot_div_nonneg by lia. apply C51_date; auto.
  - unfold in_long, LONG_MIN, LONG_MAX. lia.
  - left. lia.
  - unfold in_int, INT_MIN, INT_MAX. rewrite Z.quot_div_nonneg by lia. split; [apply Z.le_trans with 0; [lia|apply Z.div_pos; lia]|].
    enough (ms / 1000 < 2147483648) by lia. apply Z.div_lt_upper_bound; lia.
Qed.
Print Assumptions C51_since_epoch.

(** Between -9 and 99 ms the milliseconds are taken for seconds. *)
Theorem C51_near_epoch : forall d key ms,
  bson_find d key = Some (BDate ms) -> -10 < ms < 100 -> GetDatetimeFromBson d key = Some (Ok ms).
Proof.
  intros d key ms F H. unfold GetDatetimeFromBson. rewrite F. cbn [GetDatetimeFromBsonIterator].
  rewrite date_text by (unfold in_long, LONG_MIN, LONG_MAX; lia). replace ((-10 <? ms) && (ms <? 100)) with true by lia. reflexivity.
Qed.
Print Assumptions C51_near_epoch.

(** After the end of 32-bit time the seconds wrap around. *)
Theorem C51_late : forall d key ms,
  bson_find d key = Some (BDate ms) -> 2147483648000 <= ms < 4294967296000 ->
  GetDatetimeFromBson d key = Some (Ok (ms / 1000 - 4294967296)).
Proof.
  intros d key ms F H. unfold GetDatetimeFromBson. rewrite F. cbn [GetDatetimeFromBsonIterator].
  rewrite date_text by (unfold in_long, LONG_MIN, LONG_MAX; lia). replace ((-10 <? ms) && (ms <? 100)) with false by lia.
  rewrite Z.quot_div_nonneg by lia. unfold wrap32.
  assert (2147483648 <= ms / 1000) by (apply Z.div_le_lower_bound; lia). assert (ms / 1000 < 4294967296) by (apply Z.div_lt_upper_bound; lia).
  rewrite <- (Z_mod_plus_full (ms / 1000 + 2147483648) (-1) 4294967296), Z.mod_small by lia. do 2 f_equal. lia.
Qed.
Print Assumptions C51_late.

Theorem C51_refuted : exists d key ms, bson_find d key = Some (BDate ms) /\ 0 <= ms < 1000 /\
  GetDatetimeFromBson d key <> Some (Ok (ms / 1000)).
Proof. exists [(str "t", BDate 42)], (str "t"), 42. vm_compute. repeat split; congruence. Qed.
Print Assumptions C51_refuted.

Example C51_ex : GetDatetimeFromBson [(str "t", BDate 1700000000123)] (str "t") = Some (Ok 1700000000) /\
  GetDatetimeFromBson [(str "t", BUtf8 (str "2001-09-09 01:46:40"))] (str "t") = Some (Ok 1000000000).
Proof. vm_compute. auto. Qed.

(** C52. A bucket without dots whose two collections exist is listed ... *)
Theorem C52_listed : forall names b l,
  (forall n, In n names -> n <> []) -> GetCollectionNames names = Ok l ->
  ~ In "."%char b -> In (b ++ str ".files") names -> In (b ++ str ".chunks") names -> In b l.
Proof.
  intros names b l HN E ND HF HC. destruct (collections names HN) as (l' & E' & C). assert (l' = l) by congruence. subst l'.
  apply C. right. exists (b ++ str ".files"), [b], (str "files"), (str ".chunks"). split; [exact HF|].
  split; [apply (split_two b (str "files")); [exact ND| |discriminate]; vm_compute; intuition discriminate|].
  split; [reflexivity|]. cbn [concat]. rewrite app_nil_r. auto.
Qed.
Print Assumptions C52_listed.

(** ... every collection is listed, and the function returns ... *)
Theorem C52_total : forall names, (forall n, In n names -> n <> []) ->
  exists l, GetCollectionNames names = Ok l /\ forall n, In n names -> In n l.
Proof. intros names HN. destruct (collections names HN) as (l & E & C). exists l. split; [exact E|]. intros n H. apply C. auto. Qed.
Print Assumptions C52_total.

(** ... and nothing else is listed when collection names have at most one dot
    and text after it. *)
Definition one_dot (n : bytes) : Prop :=
  (n <> [] /\ ~ In "."%char n /\ n <> str "files" /\ n <> str "chunks") \/
  exists p q, n = p ++ "."%char :: q /\ ~ In "."%char p /\ ~ In "."%char q /\ q <> [].
Theorem C52_only : forall names l b,
  (forall n, In n names -> one_dot n) -> GetCollectionNames names = Ok l -> In b l ->
  In b names \/ (In (b ++ str ".files") names /\ In (b ++ str ".chunks") names).
Proof.
  intros names l b HD E HI.
  assert (HN : forall n, In n names -> n <> []).
  { intros n H. destruct (HD n H) as [(N & _)|(p & q & -> & _)]; [exact N|destruct p; discriminate]. }
  destruct (collections names HN) as (l' & E' & C). assert (l' = l) by congruence. subst l'.
  apply C in HI. destruct HI as [H|(n & front & q & h & Hn & HS & HH & -> & HO)]; [auto|]. right.
  destruct (HD n Hn) as [(N & ND & F1 & F2)|(p & q' & -> & ND1 & ND2 & NQ)].
  - exfalso. rewrite (split_one n _ ND N) in HS. destruct front as [|x front]; [|destruct front; discriminate]. injection HS as <-.
    unfold other_half in HH. apply beqb_false in F1. apply beqb_false in F2. rewrite F1, F2 in HH. discriminate.
  - rewrite (split_two p q' _ ND1 ND2 NQ) in HS. destruct front as [|x [|y front]]; try discriminate.
    + injection HS as <- <-. cbn [concat] in *. rewrite app_nil_r in *. unfold other_half in HH.
      destruct (beqb q' (str "files")) eqn:B1.
      * injection HH as <-. apply beqb_eq in B1. subst q'. split; [exact Hn|exact HO].
      * destruct (beqb q' (str "chunks")) eqn:B2; [|discriminate]. injection HH as <-. apply beqb_eq in B2. subst q'. split; [exact HO|exact Hn].
    + destruct front; discriminate.
Qed.
Print Assumptions C52_only.

(** With dots in bucket names a bucket can be missed and a bucket that does not
    exist can be listed. *)
Theorem C52_refuted :
  (exists names l b, In (b ++ str ".files") names /\ In (b ++ str ".chunks") names /\ GetCollectionNames names = Ok l /\ ~ In b l) /\
  (exists names l b, GetCollectionNames names = Ok l /\ In b l /\ ~ In b names /\ ~ In (b ++ str ".files") names).
Proof.
  split.
  - exists [str "a.b.files"; str "a.b.chunks"], [str "a.b.files"; str "a.b.chunks"], (str "a.b"). vm_compute.
    split; [auto|]. split; [auto|]. split; [reflexivity|]. intuition discriminate.
  - exists [str "a.b.files"; str "ab.chunks"], [str "a.b.files"; str "ab.chunks"; str "ab"], (str "ab"). vm_compute.
    split; [reflexivity|]. split; [auto|]. intuition discriminate.
Qed.
Print Assumptions C52_refuted.

Example C52_ex : GetCollectionNames [str "S.files"; str "S.chunks"; str "t"; str "u.files"] =
  Ok [str "S.files"; str "S.chunks"; str "t"; str "u.files"; str "S"] /\
  (forall n, In n [str "S.files"; str "S.chunks"; str "t"; str "u.files"] -> one_dot n).
Proof.
  split; [vm_compute; reflexivity|].
  assert (T : forall p q, ~ In "."%char p -> ~ In "."%char q -> q <> [] -> one_dot (p ++ "."%char :: q)) by (intros; right; eauto 6).
  intros n [<-|[<-|[<-|[<-|[]]]]].
  - apply (T (str "S") (str "files")); vm_compute; intuition discriminate.
  - apply (T (str "S") (str "chunks")); vm_compute; intuition discriminate.
  - left. vm_compute. intuition discriminate.
  - apply (T (str "u") (str "files")); vm_compute; intuition discriminate.
Qed.

(** C71. Text options stored as metadata. [strtod] need only be right on the
    decimal texts of 32-bit integers. *)
Definition strtod_ok (strtod : bytes -> f64 * nat) : Prop :=
  forall z, in_int z -> strtod (itoa z) = (of_int z, length (itoa z)).

(** Options whose value is empty, no number, or the usual text of a 32-bit
    integer are read back unchanged; fields already there stay. *)
Theorem C71_roundtrip : forall strtod show prefix (opts : list (bytes * bytes)) doc,
  strtod_ok strtod ->
  NoDup (map fst opts) ->
  (forall k v, In (k, v) opts -> v = [] \/ snd (strtod v) <> length v \/ exists z, in_int z /\ v = itoa z) ->
  (forall k v, In (k, v) opts -> bson_find doc (prefix ++ k) = None) ->
  exists doc', AppendStringOptionsToBson strtod doc opts prefix = Ok doc' /\
    (forall k v, In (k, v) opts -> GetStringFromBson show doc' (prefix ++ k) = v) /\
    (forall k v, bson_find doc k = Some v -> bson_find doc' k = Some v).
Proof.
  intros strtod show prefix opts doc HS HN HV HD.
  destruct (append_all strtod show prefix HS opts doc) as (doc' & E & P & Q).
  - apply Forall_forall. intros [k v] H. exact (HV k v H).
  - exact HN.
  - intros [k v] H. exact (HD k v H).
  - exists doc'. auto.
Qed.
Print Assumptions C71_roundtrip.

(** An option "1" is stored as a number and then reads as false; "TRUE" (no
    number) reads as true. *)
Theorem C71_flag : forall strtod prefix k,
  strtod_ok strtod -> snd (strtod (str "TRUE")) <> 4%nat ->
  (exists d, AppendStringOptionsToBson strtod [] [(k, str "1")] prefix = Ok d /\ GetBoolFromBson d (prefix ++ k) = false) /\
  (exists d, AppendStringOptionsToBson strtod [] [(k, str "TRUE")] prefix = Ok d /\ GetBoolFromBson d (prefix ++ k) = true).
Proof.
  intros strtod prefix k HS HT. unfold AppendStringOptionsToBson. cbn [ofold]. split.
  - assert (I : in_int 1) by (unfold in_int, INT_MIN, INT_MAX; lia). pose proof (HS 1 I) as E. change (itoa 1) with (str "1") in E.
    unfold append_option. cbn [fst snd]. unfold IsDouble. rewrite E, Nat.eqb_refl. change (StringMatch [] (str "1")) with false. cbn [negb orb].
    rewrite (is_whole_of_int 1 I), (f_int_of_int 1 I). cbn [obind app]. eexists. split; [reflexivity|].
    unfold GetBoolFromBson. cbn [bson_find]. rewrite beqb_refl. apply (bool_int 1).
  - unfold append_option. cbn [fst snd]. unfold IsDouble. destruct (strtod (str "TRUE")) as [x n]. cbn [snd] in HT.
    change (length (str "TRUE")) with 4%nat. apply Nat.eqb_neq in HT. rewrite HT. change (StringMatch [] (str "TRUE")) with false. cbn [negb orb obind app].
    eexists. split; [reflexivity|]. unfold GetBoolFromBson. cbn [bson_find]. rewrite beqb_refl. reflexivity.
Qed.
Print Assumptions C71_flag.

(** Other texts that are numbers change, and a whole number outside [int] is
    undefined behaviour. *)
Theorem C71_refuted : forall strtod show k,
  (strtod (str "007") = (of_int 7, 3%nat) ->
   exists d, AppendStringOptionsToBson strtod [] [(k, str "007")] [] = Ok d /\ GetStringFromBson show d k = str "7") /\
  (strtod (str "3000000000") = (of_int 3000000000, 10%nat) ->
   AppendStringOptionsToBson strtod [] [(k, str "3000000000")] [] = UB).
Proof.
  intros strtod show k. unfold AppendStringOptionsToBson. cbn [ofold]. unfold append_option. cbn [fst snd]. unfold IsDouble. split; intros ->.
  - change (is_whole (of_int 7)) with true. change (f_int (of_int 7)) with (Ok 7).
    change (StringMatch [] (str "007")) with false. cbn [length str list_ascii_of_string Nat.eqb negb orb obind app].
    eexists. split; [reflexivity|]. unfold GetStringFromBson. cbn [bson_find]. rewrite beqb_refl. reflexivity.
  - assert (F : f_int (of_int 3000000000) = UB) by (vm_compute; reflexivity). assert (W : is_whole (of_int 3000000000) = true) by (vm_compute; reflexivity).
    change (StringMatch [] (str "3000000000")) with false. cbn [length str list_ascii_of_string Nat.eqb negb orb]. rewrite W, F. reflexivity.
Qed.
Print Assumptions C71_refuted.

(** A [strtod] meeting the hypotheses: integers only. *)
Definition int_strtod (s : bytes) : f64 * nat := let (v, r) := strtol s in (of_int v, (length s - length r)%nat).
Example C71_ex : strtod_ok int_strtod /\ snd (int_strtod (str "TRUE")) <> 4%nat /\
  int_strtod (str "007") = (of_int 7, 3%nat) /\ int_strtod (str "3000000000") = (of_int 3000000000, 10%nat) /\
  (forall k v, In (k, v) [(str "a", str "x1"); (str "b", str "-12")] ->
     v = [] \/ snd (int_strtod v) <> length v \/ exists z, in_int z /\ v = itoa z).
Proof.
  split.
  - intros z H. unfold int_strtod. rewrite (strtol_canonical (itoa z) z (itoa_canonical z)).
    + cbn [length]. rewrite Nat.sub_0_r. reflexivity.
    + unfold in_int, in_long, INT_MIN, INT_MAX, LONG_MIN, LONG_MAX in *. lia.
  - split; [vm_compute; discriminate|].
    split; [unfold int_strtod; replace (strtol (str "007")) with (7, @nil ascii) by (vm_compute; reflexivity); reflexivity|].
    split; [unfold int_strtod; replace (strtol (str "3000000000")) with (3000000000, @nil ascii) by (vm_compute; reflexivity); reflexivity|].
    intros k v [[= <- <-]|[[= <- <-]|[]]].
    + right. left. vm_compute. discriminate.
    + right. right. exists (-12). split; [unfold in_int, INT_MIN, INT_MAX; lia|reflexivity].
Qed.
