(** Property theorems about IsIpAddress (C19) and data type names (C20). *)
From Coq Require Import ZArith Ascii String List Bool Lia.
From Verif Require Import Base StrModel StrSpec StrProofs BasicModel BasicSpec BasicProofs.
Import ListNotations.
Open Scope Z_scope.

(** ** C19 *)
(** Exactly which texts are accepted. *)
Theorem C19_accepted : forall s : bytes, IsIpAddress s = true <->
  exists d1 d2 d3 d4 r, quad s d1 d2 d3 d4 r /\
    octet_text d1 /\ octet_text d2 /\ octet_text d3 /\ octet_text d4 /\
    Forall digit_or_dot r /\ (r = [] \/ exists t, r = "."%char :: t).
Proof. exact IsIpAddress_iff. Qed.
Print Assumptions C19_accepted.

(** Every dotted quad of octets is. *)
Theorem C19_dotted_quad : forall a b c d : Z, 0 <= a <= 255 -> 0 <= b <= 255 -> 0 <= c <= 255 -> 0 <= d <= 255 ->
  IsIpAddress (itoa a ++ "."%char :: itoa b ++ "."%char :: itoa c ++ "."%char :: itoa d) = true.
Proof.
  intros a b c d Ha Hb Hc Hd. unfold itoa.
  replace (a <? 0) with false by (symmetry; apply Z.ltb_ge; lia).
  replace (b <? 0) with false by (symmetry; apply Z.ltb_ge; lia).
  replace (c <? 0) with false by (symmetry; apply Z.ltb_ge; lia).
  replace (d <? 0) with false by (symmetry; apply Z.ltb_ge; lia).
  apply IsIpAddress_iff. exists (dec a), (dec b), (dec c), (dec d), [].
  split; [unfold quad; now rewrite app_nil_r|].
  split; [now apply octet_dec|]. split; [now apply octet_dec|]. split; [now apply octet_dec|].
  split; [now apply octet_dec|]. split; [constructor|now left].
Qed.
Print Assumptions C19_dotted_quad.

(** A leading component between 256 and 2^31-1 is refused (the same holds for
    the other three by C19_accepted). *)
Theorem C19_component_above : forall d1 r : bytes, number_text d1 -> 255 < value_of 0 d1 <= INT_MAX ->
  IsIpAddress (d1 ++ "."%char :: r) = false.
Proof.
  intros d1 r N H. destruct (IsIpAddress (d1 ++ "."%char :: r)) eqn:E; [|reflexivity].
  apply IsIpAddress_iff in E. destruct E as (e1 & e2 & e3 & e4 & r' & Q & [[Hn F] O1] & _).
  unfold quad in Q. apply app_delim_inj in Q.
  - destruct Q as [<- _]. rewrite as_int_small in O1; unfold INT_MAX in *; lia.
  - intros X. destruct N as [_ F']. rewrite Forall_forall in F'. apply F' in X. discriminate X.
  - intros X. rewrite Forall_forall in F. apply F in X. discriminate X.
Qed.
Print Assumptions C19_component_above.

(** Not only addresses: a fifth component, a trailing dot, numbers wrapping at
    2^32, leading zeros without end. *)
Theorem C19_only_addresses_refuted :
  IsIpAddress (str "1.2.3.4.5") = true /\ IsIpAddress (str "1.2.3.4.") = true /\
  IsIpAddress (str "4294967297.0.0.1") = true /\ IsIpAddress (str "1.2.3.4...999") = true /\
  IsIpAddress (str "0000000001.2.3.4") = true.
Proof. vm_compute. auto. Qed.
Print Assumptions C19_only_addresses_refuted.

Example C19_ex : IsIpAddress (str "127.0.0.1") = true /\ IsIpAddress (str "256.0.0.1") = false /\
  IsIpAddress (str "1.2.3") = false /\ IsIpAddress (str "1.2.3.x") = false /\ IsIpAddress (str " 1.2.3.4") = false.
Proof. vm_compute. auto 10. Qed.
Example C19_ex_hyp : number_text (str "300") /\ 255 < value_of 0 (str "300") <= INT_MAX.
Proof. split; [split; [discriminate|repeat constructor]|vm_compute; split; [reflexivity|discriminate]]. Qed.

(** ** C20 *)
(** Any re-casing of a type's name reads back as the type. *)
Theorem C20_round_trip : forall (t : rdt) (s : bytes),
  Forall2 same_letter s (RasterDataTypeToString t) -> StringToRasterDataType s = t.
Proof.
  intros t s H. apply StringMatch_iff in H. unfold StringMatch in H. apply beqb_eq in H.
  rewrite (case_type s t H). now destruct t.
Qed.
Print Assumptions C20_round_trip.

(** The recognised names. *)
Definition type_names : list (bytes * rdt) :=
  [(str "UCHAR", RDT_UInt8); (str "UINT8", RDT_UInt8); (str "GDT_Byte", RDT_UInt8);
   (str "CHAR", RDT_Int8); (str "INT8", RDT_Int8); (str "GDT_Int8", RDT_Int8);
   (str "UINT16", RDT_UInt16); (str "GDT_UInt16", RDT_UInt16); (str "INT16", RDT_Int16); (str "GDT_Int16", RDT_Int16);
   (str "UINT32", RDT_UInt32); (str "GDT_UInt32", RDT_UInt32); (str "INT32", RDT_Int32); (str "GDT_Int32", RDT_Int32);
   (str "UINT64", RDT_UInt64); (str "GDT_UInt64", RDT_UInt64); (str "INT64", RDT_Int64); (str "GDT_Int64", RDT_Int64);
   (str "FLOAT", RDT_Float); (str "GDT_Float32", RDT_Float); (str "DOUBLE", RDT_Double); (str "GDT_Float64", RDT_Double)].

(** All names and no others: a text gives type [t] (not Unknown) exactly when it
    is one of the names of [t] up to case. *)
Theorem C20_names : forall (s : bytes) (t : rdt), t <> RDT_Unknown ->
  (StringToRasterDataType s = t <-> exists n, In (n, t) type_names /\ Forall2 same_letter s n).
Proof.
  intros s t Ht. split.
  - intros H.
    assert (X : exists n, In (n, t) type_names /\ StringMatch s n = true).
    { unfold StringToRasterDataType in H.
      repeat match type of H with
      | (if ?c then ?v else _) = _ =>
          destruct c eqn:?; [subst t; rewrite ?orb_true_iff in *|]
      end; try congruence;
      repeat match goal with E : _ \/ _ |- _ => destruct E as [E|E] end;
      match goal with E : StringMatch s ?n = true |- _ => exists n; split; [unfold type_names; cbn [In]; auto 30|exact E] end. }
    destruct X as [n [Hin E]]. exists n. split; [exact Hin|]. now apply StringMatch_iff.
  - intros [n [Hin E]]. apply StringMatch_iff in E. unfold StringMatch in E. apply beqb_eq in E.
    unfold StringToRasterDataType, StringMatch. rewrite E. clear E Ht.
    unfold type_names in Hin. cbn [In] in Hin.
    repeat (destruct Hin as [Hin|Hin]; [injection Hin as <- <-; vm_compute; reflexivity|]). destruct Hin.
Qed.
Print Assumptions C20_names.

Example C20_ex : StringToRasterDataType (str "uInt16") = RDT_UInt16 /\ StringToRasterDataType (str "real") = RDT_Unknown /\
  Forall2 same_letter (str "float") (RasterDataTypeToString RDT_Float).
Proof.
  split; [vm_compute; reflexivity|]. split; [vm_compute; reflexivity|]. apply StringMatch_iff. vm_compute. reflexivity.
Qed.
