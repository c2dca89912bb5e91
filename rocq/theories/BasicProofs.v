(** Proofs about BasicModel. *)
From Coq Require Import ZArith Ascii String List Bool Lia ZifyBool.
From Verif Require Import Base StrModel StrSpec StrProofs ScanModel BasicModel BasicSpec.
Import ListNotations.
Open Scope Z_scope.

Lemma digits_split : forall s acc, exists d, s = d ++ snd (digits acc s) /\
  Forall (fun c => isdigit c = true) d /\ fst (digits acc s) = value_of acc d /\
  match snd (digits acc s) with c :: _ => isdigit c = false | [] => True end.
Proof.
  induction s as [|c t IH]; intros acc; cbn [digits].
  - exists []. cbn. auto.
  - destruct (isdigit c) eqn:E.
    + destruct (IH (acc * 10 + (code c - 48))) as [d [E1 [F [V H]]]].
      exists (c :: d). cbn [app value_of]. split; [now rewrite <- E1|]. split; [now constructor|]. auto.
    + exists []. cbn. auto.
Qed.

Lemma digits_app : forall d acc r, Forall (fun c => isdigit c = true) d ->
  match r with c :: _ => isdigit c = false | [] => True end ->
  digits acc (d ++ r) = (value_of acc d, r).
Proof.
  induction d as [|c d IH]; intros acc r F H; cbn [app value_of].
  - destruct r as [|c r]; [reflexivity|]. cbn [digits]. now rewrite H.
  - inversion F as [|? ? Hc F']; subst. cbn [digits]. rewrite Hc. now apply IH.
Qed.

Lemma value_of_nonneg : forall d acc, Forall (fun c => isdigit c = true) d -> 0 <= acc -> 0 <= value_of acc d.
Proof.
  induction d as [|c d IH]; intros acc F H; cbn [value_of]; [exact H|].
  inversion F as [|? ? Hc F']; subst. apply IH; [exact F'|]. apply isdigit_code in Hc. lia.
Qed.

Lemma clamp_nonneg v : 0 <= v -> clamp_long v = Z.min LONG_MAX v.
Proof. unfold clamp_long, LONG_MAX, LONG_MIN. lia. Qed.

Lemma isdigit_not_sign c : isdigit c = true -> c <> "-"%char /\ c <> "+"%char /\ c <> "."%char.
Proof. intros H. repeat split; intros ->; discriminate H. Qed.

Lemma scan_number d r : number_text d -> match r with c :: _ => isdigit c = false | [] => True end ->
  scan_int None (d ++ r) = Some (as_int (value_of 0 d), r).
Proof.
  intros [Hn F] Hr. destruct d as [|c d]; [congruence|]. inversion F as [|? ? Hc F']; subst.
  pose proof (digits_app (c :: d) 0 r F Hr) as D.
  unfold scan_int. cbn [app skip_ws]. rewrite (isdigit_not_space c Hc).
  destruct (isdigit_not_sign c Hc) as [N1 [N2 _]].
  destruct (ascii_dec c "-") as [E|_]; [contradiction|]. destruct (ascii_dec c "+") as [E|_]; [contradiction|].
  rewrite Hc. cbn [app] in D. rewrite D. rewrite app_nil_r. unfold as_int.
  rewrite clamp_nonneg; [reflexivity|]. apply value_of_nonneg; [exact F|lia].
Qed.

Lemma scan_number_inv s v r : Forall digit_or_dot s -> scan_int None s = Some (v, r) ->
  exists d, s = d ++ r /\ number_text d /\ v = as_int (value_of 0 d) /\
    match r with c :: _ => isdigit c = false | [] => True end.
Proof.
  intros F E. destruct s as [|c t]; [discriminate E|]. inversion F as [|? ? Hc F']; subst.
  destruct Hc as [Hc| ->]; [|discriminate E].
  destruct (digits_split (c :: t) 0) as [d [E1 [Fd [V H]]]].
  assert (Hn : d <> []). { intros ->. cbn [app] in E1. rewrite <- E1 in H. congruence. }
  exists d. rewrite E1 in E. rewrite scan_number in E; [|split; assumption|exact H].
  injection E as <- <-. repeat split; auto.
Qed.

Lemma ip_fmt_eq : ip_fmt = [SInt None; SLit "."; SInt None; SLit "."; SInt None; SLit "."; SInt None].
Proof. reflexivity. Qed.

Lemma ok_char c : negb (negb (if ascii_dec c "." then true else false) && ((code c <? 48) || (code c >? 57))) = true
  <-> digit_or_dot c.
Proof.
  unfold digit_or_dot, isdigit. destruct (ascii_dec c ".") as [->|Hn].
  - split; [intros _; now right|reflexivity].
  - cbn [negb andb]. split.
    + intros H. left. lia.
    + intros [H|H]; [lia|contradiction].
Qed.

Lemma digit_ok d : Forall (fun c => isdigit c = true) d -> Forall digit_or_dot d.
Proof. apply Forall_impl. intros a H. now left. Qed.

Lemma IsIpAddress_iff s : IsIpAddress s = true <->
  exists d1 d2 d3 d4 r, quad s d1 d2 d3 d4 r /\
    octet_text d1 /\ octet_text d2 /\ octet_text d3 /\ octet_text d4 /\
    Forall digit_or_dot r /\ (r = [] \/ exists t, r = "."%char :: t).
Proof.
  unfold IsIpAddress. rewrite ip_fmt_eq. split.
  - intros H.
    destruct (sscanf [SInt None; SLit "."; SInt None; SLit "."; SInt None; SLit "."; SInt None] s)
      as [|a [|b [|c [|d [|? ?]]]]] eqn:S; try discriminate H.
    destruct ((a >? 255) || (b >? 255) || (c >? 255) || (d >? 255) || (a <? 0) || (b <? 0) || (c <? 0) || (d <? 0)) eqn:R;
      [discriminate H|].
    rewrite forallb_forall in H.
    assert (F : Forall digit_or_dot s) by (apply Forall_forall; intros x Hx; apply ok_char; now apply H).
    cbn [sscanf] in S.
    assert (P : forall s x (k : bytes -> list Z) l, Forall digit_or_dot s ->
      (match scan_int None s with Some (v, r) => v :: k r | None => [] end) = x :: l ->
      exists d r, s = d ++ r /\ number_text d /\ x = as_int (value_of 0 d) /\ k r = l /\ Forall digit_or_dot r /\
        match r with c :: _ => isdigit c = false | [] => True end).
    { intros s0 x k l F0 E. destruct (scan_int None s0) as [[v r]|] eqn:Sc; [|discriminate E].
      injection E as <- <-. destruct (scan_number_inv s0 v r F0 Sc) as [dd [E1 [N [V Q]]]].
      exists dd, r. repeat split; auto; try apply N. rewrite E1 in F0. apply Forall_app in F0. apply F0. }
    assert (Lt : forall s (k : bytes -> list Z) x l, Forall digit_or_dot s ->
      (match s with c' :: t => if ascii_dec c' "." then k t else [] | [] => [] end) = x :: l ->
      exists t, s = "."%char :: t /\ k t = x :: l /\ Forall digit_or_dot t).
    { intros s0 k x l F0 E. destruct s0 as [|c' t]; [discriminate E|].
      destruct (ascii_dec c' ".") as [->|]; [|discriminate E]. inversion F0; subst. exists t. auto. }
    apply P in S; [|exact F]. destruct S as [d1 [r1 [-> [N1 [-> [S [F1 _]]]]]]].
    apply Lt in S; [|exact F1]. destruct S as [t1 [-> [S F1']]].
    apply P in S; [|exact F1']. destruct S as [d2 [r2 [-> [N2 [-> [S [F2 _]]]]]]].
    apply Lt in S; [|exact F2]. destruct S as [t2 [-> [S F2']]].
    apply P in S; [|exact F2']. destruct S as [d3 [r3 [-> [N3 [-> [S [F3 _]]]]]]].
    apply Lt in S; [|exact F3]. destruct S as [t3 [-> [S F3']]].
    apply P in S; [|exact F3']. destruct S as [d4 [r [-> [N4 [-> [_ [F4 Q]]]]]]].
    exists d1, d2, d3, d4, r. split; [reflexivity|]. unfold octet_text.
    split; [split; [exact N1|lia]|]. split; [split; [exact N2|lia]|]. split; [split; [exact N3|lia]|].
    split; [split; [exact N4|lia]|]. split; [exact F4|].
    destruct r as [|x t]; [now left|]. right. inversion F4 as [|? ? Hx _]; subst.
    destruct Hx as [Hx| ->]; [congruence|]. now exists t.
  - intros (d1 & d2 & d3 & d4 & r & -> & [N1 O1] & [N2 O2] & [N3 O3] & [N4 O4] & F & Hr).
    assert (Qr : match r with c :: _ => isdigit c = false | [] => True end).
    { destruct Hr as [->|[t ->]]; [exact I|reflexivity]. }
    cbn [sscanf].
    assert (AD : forall A (x y : A), (if ascii_dec "." "." then x else y) = x) by reflexivity.
    rewrite (scan_number d1); [|exact N1|reflexivity]. rewrite AD.
    rewrite (scan_number d2); [|exact N2|reflexivity]. rewrite AD.
    rewrite (scan_number d3); [|exact N3|reflexivity]. rewrite AD.
    rewrite (scan_number d4); [|exact N4|exact Qr]. cbv beta iota.
    match goal with |- (if ?x then _ else _) = true => replace x with false by lia end.
    apply forallb_forall. intros x Hx. apply ok_char.
    assert (FF : Forall digit_or_dot (d1 ++ "."%char :: d2 ++ "."%char :: d3 ++ "."%char :: d4 ++ r)).
    { apply Forall_app; split; [apply digit_ok, N1|]. constructor; [now right|].
      apply Forall_app; split; [apply digit_ok, N2|]. constructor; [now right|].
      apply Forall_app; split; [apply digit_ok, N3|]. constructor; [now right|].
      apply Forall_app; split; [apply digit_ok, N4|]. exact F. }
    rewrite Forall_forall in FF. now apply FF.
Qed.

Lemma as_int_small v : 0 <= v <= INT_MAX -> as_int v = v.
Proof. intros H. unfold as_int. unfold LONG_MAX, INT_MAX in *. rewrite Z.min_r by lia. apply wrap32_id. unfold in_int, INT_MIN, INT_MAX. lia. Qed.

Lemma octet_dec v : 0 <= v <= 255 -> octet_text (dec v).
Proof.
  intros H. destruct (itoa_canonical v) as [(d & E & _ & Hn & F & V & _)|(d & _ & H' & _)]; [|lia].
  unfold itoa in E. replace (v <? 0) with false in E by lia. rewrite E. split; [split; auto|].
  rewrite V, as_int_small; unfold INT_MAX; lia.
Qed.

(** Data types. *)
Lemma case_type s t : GetUpper s = GetUpper (RasterDataTypeToString t) ->
  StringToRasterDataType s = match t with RDT_Unknown => RDT_Unknown | _ => t end.
Proof.
  intros H. unfold StringToRasterDataType, StringMatch. rewrite H. destruct t; vm_compute; reflexivity.
Qed.
