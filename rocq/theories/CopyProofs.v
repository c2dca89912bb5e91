(** Lemmas about copies and cached statistics. *)
From Coq Require Import ZArith QArith List Bool Lia String Sorted.
From Verif Require Import Base StrModel MapModel MapProofs RasterModel RasterSpec ListLib RasterProofs
  SubsetModel SubsetProofs CopyModel CopySpec.
Import List ListNotations.
Open Scope Z_scope.
Open Scope outcome_scope.

(** *** Copying arrays *)
Lemma copy1d_same {A} (junk : nat -> list A) l n : n = Z.of_nat (length l) ->
  copy1d junk None n (Some l) = Ok (Some l).
Proof.
  intros ->. unfold copy1d. replace (Z.of_nat (length l) <? 0) with false by lia.
  rewrite Z.leb_refl, Nat2Z.id, firstn_all. reflexivity.
Qed.

Lemma copy_row {A} (c : list A) : forall n, (n <= length c)%nat ->
  ofold (fun row j => let* v := aget c j in Ok (row ++ [v])) (zseq (Z.of_nat n)) [] = Ok (firstn n c).
Proof.
  induction n as [|n IH]; intros H; [reflexivity|].
  replace (Z.of_nat (S n)) with (Z.of_nat n + 1) by lia. rewrite zseq_S by lia. rewrite ofold_app, IH by lia.
  cbn [ofold obind]. destruct (aget_in c (Z.of_nat n)) as (v & E & _); [lia|]. rewrite E. cbn [obind].
  apply aget_inv in E. destruct E as [_ E]. rewrite Nat2Z.id in E.
  rewrite (firstn_skipn_middle c n v) at 1 || idtac.
  assert (X : firstn (S n) c = firstn n c ++ [v]).
  { clear -E. revert c E. induction n as [|n IH]; intros [|a c] E; cbn in *; try discriminate; [congruence|]. f_equal. apply IH, E. }
  rewrite X. reflexivity.
Qed.

Lemma copy_rows {A} (d : list (list A)) k : 0 <= k -> Forall (fun c => Z.of_nat (length c) = k) d ->
  forall n, (n <= length d)%nat ->
  ofold (fun acc i =>
            let* c := aget d i in
            let* row := ofold (fun row j => let* v := aget c j in Ok (row ++ [v])) (zseq k) [] in
            Ok (acc ++ [row])) (zseq (Z.of_nat n)) [] = Ok (firstn n d).
Proof.
  intros Hk F. induction n as [|n IH]; intros H; [reflexivity|].
  replace (Z.of_nat (S n)) with (Z.of_nat n + 1) by lia. rewrite zseq_S by lia. rewrite ofold_app, IH by lia.
  cbn [ofold obind]. destruct (aget_in d (Z.of_nat n)) as (c & E & I); [lia|]. rewrite E. cbn [obind].
  rewrite Forall_forall in F. specialize (F c I).
  assert (R : ofold (fun row j => let* v := aget c j in Ok (row ++ [v])) (zseq k) [] = Ok c).
  { rewrite <- F, copy_row by lia. now rewrite firstn_all. }
  rewrite R. cbn [obind].
  apply aget_inv in E. destruct E as [_ E]. rewrite Nat2Z.id in E.
  assert (X : firstn (S n) d = firstn n d ++ [c]).
  { clear -E. revert d E. induction n as [|n IH]; intros [|a d] E; cbn in *; try discriminate; [congruence|]. f_equal. apply IH, E. }
  rewrite X. reflexivity.
Qed.

Lemma copy2d_same {A} (d : list (list A)) n k : n = Z.of_nat (length d) -> 0 < n -> 0 < k ->
  Forall (fun c => Z.of_nat (length c) = k) d -> copy2d None n k (Some d) = Ok (Some d).
Proof.
  intros En Hn Hk F. unfold copy2d. cbn [deref obind].
  destruct (aget_in d 0) as (c & E & I); [lia|]. rewrite E. cbn [obind].
  pose proof F as F'. rewrite Forall_forall in F'. specialize (F' c I).
  destruct (aget_in c 0) as (v & Ev & _); [lia|]. rewrite Ev. cbn [obind].
  replace ((n <? 0) || (n * k <? 0)) with false by nia.
  rewrite En. rewrite copy_rows by (lia || assumption). cbn [obind]. now rewrite firstn_all.
Qed.

Lemma copy_pos_same (d : list (Z * Z)) n : n = Z.of_nat (length d) -> 0 < n -> copy_pos None n (Some d) = Ok (Some d).
Proof.
  intros -> Hn. unfold copy_pos. cbn [deref obind].
  destruct (aget_in d 0) as (c & E & I); [lia|]. rewrite E. cbn [obind].
  replace (Z.of_nat (length d) <? 0) with false by lia. rewrite Z.leb_refl, Nat2Z.id, firstn_all. reflexivity.
Qed.

(** *** Subsets *)
Section Deep.
Context {D : Type}.
Variable junkZ : nat -> list Z.
Variable junkD : nat -> list D.

Lemma DeepSubset_ok (s : @subset D) : subset_full s -> exists s', DeepSubset junkZ junkD s = Ok s' /\ same_subset s s'.
Proof.
  intros (Hn & (g & Eg & Lg) & (p & Ep & Lp) & (i & Ei & Li) & Hd & Hd2). unfold DeepSubset.
  rewrite Eg, Ep, Ei, !copy1d_same, copy_pos_same by lia. cbn [obind].
  assert (X : (match s_data s with None => Ok None | Some _ => copy1d junkD None (s_n s) (s_data s) end) = Ok (s_data s)).
  { destruct (s_data s) as [d|]; [|reflexivity]. specialize (Hd d eq_refl). apply copy1d_same. lia. }
  rewrite X. cbn [obind].
  assert (Y : (match s_data2 s with None => Ok None | Some _ => copy2d None (s_n s) (s_lyrs s) (s_data2 s) end) = Ok (s_data2 s)).
  { destruct (s_data2 s) as [d|]; [|reflexivity]. destruct (Hd2 d eq_refl) as (H1 & H2 & H3). apply copy2d_same; try lia.
    eapply Forall_impl; [|exact H3]. cbn. intros c Hc. lia. }
  rewrite Y. cbn [obind]. eexists. split; [reflexivity|].
  unfold same_subset. cbn. rewrite Eg, Ep, Ei. repeat split; reflexivity.
Qed.

Definition deep_fold (l : list (Z * @subset D)) (m : list (Z * @subset D)) :=
  ofold (fun m ks => let* s := DeepSubset junkZ junkD (snd ks) in Ok (zput m (fst ks) s)) l m.

Lemma deep_fold_ok : forall (l : list (Z * @subset D)) m, Forall (fun ks => subset_full (snd ks)) l -> NoDup (map fst l) ->
  ksorted m -> exists m', deep_fold l m = Ok m' /\ ksorted m' /\
  forall k, match zfind l k with
            | Some s => exists s', zfind m' k = Some s' /\ same_subset s s'
            | None => zfind m' k = zfind m k end.
Proof.
  induction l as [|[k0 s0] l IH]; intros m F N K.
  - exists m. repeat split; auto.
  - inversion F as [|? ? F1 F2]; subst. inversion N as [|? ? N1 N2]; subst. cbn [fst snd] in *.
    destruct (DeepSubset_ok s0 F1) as (s' & E & S).
    destruct (IH (zput m k0 s') F2 N2 (zput_sorted m k0 s' K)) as (m' & E' & K' & H).
    exists m'. split; [|split; [exact K'|]].
    + unfold deep_fold in *. cbn [ofold]. cbn [fst snd]. rewrite E. cbn [obind]. exact E'.
    + intros k. specialize (H k). cbn [zfind]. destruct (k =? k0) eqn:Ek.
      * assert (k = k0) by lia. subst. destruct (zfind l k0) as [s1|] eqn:Z1.
        { exfalso. apply N1. clear -Z1. induction l as [|[q b] l IH]; cbn in *; [discriminate|].
          destruct (k0 =? q) eqn:Eq; [left; lia|right; auto]. }
        rewrite H, zfind_zput by exact K. rewrite Z.eqb_refl. exists s'. auto.
      * destruct (zfind l k); [exact H|]. rewrite H, zfind_zput by exact K. rewrite Ek. reflexivity.
Qed.
End Deep.

(** *** Statistics maps *)
Lemma named_lookup {V} (m : smap V) k : named m -> In k stats_names -> lookup m k <> None.
Proof. intros [_ H] I E. apply lookup_none in E. apply E, H, I. Qed.

Lemma named_lookup_in {V} (m : smap V) k : named m -> (lookup m k <> None <-> In k stats_names).
Proof. intros [N H]. rewrite lookup_none. rewrite <- H. destruct (in_dec (list_eq_dec Ascii.ascii_dec) k (map fst m)); tauto. Qed.

Lemma named_assign {V} (m : smap V) k v : named m -> named (assign m k v).
Proof. intros [N H]. split; rewrite assign_keys; auto. Qed.

Lemma at_set_named {V} (m : smap V) k v : named m -> In k stats_names -> at_set m k v = Ok (assign m k v).
Proof. intros N I. unfold at_set. pose proof (named_lookup m k N I). destruct (lookup m k); congruence. Qed.

Lemma derived_in k : In k derived_names <-> In k stats_names.
Proof. unfold derived_names, stats_names. cbn [map In]. tauto. Qed.

Lemma put_derived_ok {V} (m : smap V) v0 v1 v2 v3 v4 v5 vs : named m ->
  exists m', put_derived m (v0 :: v1 :: v2 :: v3 :: v4 :: v5 :: vs) = Ok m' /\ named m' /\
  (forall i k, nth_error derived_names i = Some k -> lookup m' k = nth_error (v0 :: v1 :: v2 :: v3 :: v4 :: v5 :: vs) i).
Proof.
  intros N. unfold put_derived. set (l := v0 :: v1 :: v2 :: v3 :: v4 :: v5 :: vs).
  change (combine (zseq 6) derived_names) with (combine [0;1;2;3;4;5] derived_names).
  unfold derived_names. cbn [map combine ofold fst snd].
  assert (A : forall k, In k derived_names -> In k stats_names) by (intro; apply derived_in).
  unfold derived_names in A. cbn [map] in A.
  repeat (change (aget l 0) with (Ok v0); change (aget l 1) with (Ok v1);
  change (aget l 2) with (Ok v2); change (aget l 3) with (Ok v3);
  change (aget l 4) with (Ok v4); change (aget l 5) with (Ok v5); cbn [obind];
  try (rewrite at_set_named by ((repeat apply named_assign; exact N) || (apply A; cbn [In]; tauto)); cbn [obind])).
  eexists. split; [reflexivity|]. split; [repeat apply named_assign; exact N|].
  assert (L : forall k v, In k stats_names -> forall m : smap V, named m -> forall k', lookup (assign m k v) k' = if beqb k k' then Some v else lookup m k').
  { intros k v I m0 N0 k'. rewrite lookup_assign. pose proof (named_lookup m0 k N0 I). destruct (beqb k k') eqn:E; [|reflexivity].
    apply beqb_true in E. subst. destruct (lookup m0 k'); [reflexivity|congruence]. }
  intros i k H.
  rewrite !L by ((repeat apply named_assign; exact N) || (apply A; cbn [In]; tauto)).
  do 6 (destruct i as [|i]; [cbn [nth_error] in H; injection H as <-; reflexivity|]).
  cbn [nth_error] in H. destruct i; discriminate.
Qed.

Lemma ofold_steps {A B} (f : A -> B -> outcome A) (P : B -> Prop) : (forall a b a', f a b = Ok a' -> P b) ->
  forall l a a', ofold f l a = Ok a' -> Forall P l.
Proof.
  intros H. induction l as [|b l IH]; intros a a' E; [constructor|]. cbn [ofold] in E.
  destruct (f a b) as [a1| |] eqn:F; cbn [obind] in E; try discriminate. constructor; [eapply H, F|eapply IH, E].
Qed.

Lemma put_derived_short {V} (m : smap V) vs m' : put_derived m vs = Ok m' -> (6 <= length vs)%nat.
Proof.
  intros E. unfold put_derived in E.
  apply (ofold_steps _ (fun ik => fst ik < Z.of_nat (length vs))) in E.
  - rewrite Forall_forall in E. specialize (E (5, str "RANGE")). cbn [fst] in E. cut (5 < Z.of_nat (length vs)); [lia|].
    apply E. vm_compute. tauto.
  - intros a b a' H. destruct (aget vs (fst b)) eqn:G; cbn [obind] in H; try discriminate. apply aget_inv in G.
    destruct G as [G1 G2]. assert (Z.to_nat (fst b) < length vs)%nat by (apply nth_error_Some; congruence). lia.
Qed.

Lemma put_derived_any {V} (m : smap V) vs : (6 <= length vs)%nat -> named m ->
  exists m', put_derived m vs = Ok m' /\ named m' /\
  (forall i k, nth_error derived_names i = Some k -> lookup m' k = nth_error vs i).
Proof. do 6 (destruct vs as [|? vs]; [cbn; lia|]). intros _ N. apply put_derived_ok, N. Qed.

Lemma named_cons {V} (m : smap V) : named m -> exists kv t, m = kv :: t.
Proof.
  intros [_ H]. destruct m as [|kv t]; [|eauto]. exfalso.
  apply (proj2 (H (str "MEAN"))). unfold stats_names. cbn [map In]. tauto.
Qed.

Lemma initial_named {V} (v : V) (m : smap V) : named m -> fold_left (fun m k => emplace m k v) stats_names m = m.
Proof.
  intros N. assert (E : forall k, In k stats_names -> emplace m k v = m).
  { intros k I. unfold emplace. pose proof (named_lookup m k N I). destruct (lookup m k); [reflexivity|congruence]. }
  unfold stats_names in *. cbn [map In fold_left] in *. rewrite !E by tauto. reflexivity.
Qed.

Lemma named_of_lookup {V W} (m : smap V) (m' : smap W) : named m -> NoDup (map fst m') ->
  (forall k, lookup m' k = None <-> lookup m k = None) -> named m'.
Proof.
  intros [N H] N' L. split; [exact N'|]. intros k. rewrite <- H. specialize (L k). rewrite !lookup_none in L.
  destruct (in_dec (list_eq_dec Ascii.ascii_dec) k (map fst m)), (in_dec (list_eq_dec Ascii.ascii_dec) k (map fst m')); tauto.
Qed.

(** InitialStatsMap on any map leaves the six names bound. *)
Lemma lookup_initial {V} (v : V) (m : smap V) k : In k stats_names ->
  lookup (fold_left (fun m k => emplace m k v) stats_names m) k = match lookup m k with Some w => Some w | None => Some v end.
Proof.
  unfold stats_names. cbn [map fold_left In]. intros I.
  rewrite !lookup_emplace. destruct (lookup m k) as [w|]; [reflexivity|].
  repeat (destruct I as [I|I]; [rewrite <- I; repeat (match goal with |- context[beqb ?a ?b] => let c := eval vm_compute in (beqb a b) in change (beqb a b) with c end; cbv iota); reflexivity|]).
  contradiction.
Qed.

Lemma lookup_initial_other {V} (v : V) (m : smap V) k : ~ In k stats_names ->
  lookup (fold_left (fun m k => emplace m k v) stats_names m) k = lookup m k.
Proof.
  unfold stats_names. cbn [map fold_left In]. intros I.
  rewrite !lookup_emplace. destruct (lookup m k) as [w|]; [reflexivity|].
  repeat (match goal with |- context[beqb ?a k] => let H := fresh in destruct (beqb a k) eqn:H; [apply beqb_true in H; tauto|clear H] end). reflexivity.
Qed.

Lemma named_initial {V} (v : V) (m : smap V) : named m \/ m = [] ->
  named (fold_left (fun m k => emplace m k v) stats_names m).
Proof.
  intros H. assert (ND : NoDup (map fst m)) by (destruct H as [[N _]| ->]; [exact N|constructor]).
  split.
  - unfold stats_names. cbn [map fold_left]. repeat apply emplace_NoDup. exact ND.
  - intros k. assert (L : lookup (fold_left (fun m k => emplace m k v) stats_names m) k <> None <-> In k stats_names).
    { destruct (in_dec (list_eq_dec Ascii.ascii_dec) k stats_names) as [I|I].
      - rewrite lookup_initial by exact I. destruct (lookup m k); split; intros; auto; discriminate.
      - rewrite lookup_initial_other by exact I. split; [|tauto]. intros L. destruct H as [N| ->]; [|cbn in L; congruence].
        apply (named_lookup_in m k N) in L. exact L. }
    rewrite lookup_none in L.
    destruct (in_dec (list_eq_dec Ascii.ascii_dec) k (map fst (fold_left (fun m k => emplace m k v) stats_names m))); tauto.
Qed.
Section Stats.
Context {T D : Type}.
Variable junkD : nat -> list D.

Lemma copy_stats2_ok n : forall (l : smap (option (list D))) (m : smap (option (list D))), named m ->
  NoDup (map fst l) -> (forall k, In k (map fst l) -> In k stats_names) ->
  (forall k p, In (k, p) l -> exists d, p = Some d /\ Z.of_nat (length d) = n) ->
  exists m', ofold (fun m kp => let* a := copy1d junkD None n (snd kp) in at_set m (fst kp) a) l m = Ok m' /\
  named m' /\ forall k, lookup m' k = match lookup l k with Some p => Some p | None => lookup m k end.
Proof.
  induction l as [|[k0 p0] l IH]; intros m N ND K P.
  - exists m. repeat split; try apply N; auto.
  - inversion ND as [|? ? N1 N2]; subst. cbn [map fst] in *.
    destruct (P k0 p0 (or_introl eq_refl)) as (d & -> & Ld). cbn [ofold fst snd].
    rewrite copy1d_same by auto. cbn [obind]. rewrite at_set_named by (auto; apply K; left; reflexivity). cbn [obind].
    destruct (IH (assign m k0 (Some d))) as (m' & E & Nm & L).
    + apply named_assign, N.
    + exact N2.
    + intros k I. apply K. right. exact I.
    + intros k p I. apply (P k). right. exact I.
    + exists m'. split; [exact E|]. split; [exact Nm|]. intros k. rewrite L. cbn [lookup].
      rewrite lookup_assign. destruct (beqb k0 k) eqn:B.
      * apply beqb_true in B. subst.
        assert (X : lookup l k = None) by (apply lookup_none; exact N1). rewrite X.
        pose proof (named_lookup m k N (K k (or_introl eq_refl))). destruct (lookup m k); [reflexivity|congruence].
      * reflexivity.
Qed.

(** The two objects agree on all that GetStatistics looks at. *)
Definition stats_alike (a b : robj T D) : Prop :=
  let ra := o_r a in let rb := o_r b in
  r_is2d rb = r_is2d ra /\ r_nlyrs rb = r_nlyrs ra /\ r_ncells rb = r_ncells ra /\ r_nodata rb = r_nodata ra /\
  o_default b = o_default a /\ o_scalc b = o_scalc a /\ named (o_stats a) /\ named (o_stats b) /\
  (if r_is2d ra
   then r_data2d rb = r_data2d ra /\ named (o_stats2 a) /\ named (o_stats2 b) /\
        forall k, lookup (o_stats2 b) k = lookup (o_stats2 a) k
   else r_data rb = r_data ra /\ (o_scalc a = true -> forall k, lookup (o_stats b) k = lookup (o_stats a) k)).

Variable feqD : D -> D -> bool.
Variable dNODATA : D.
Variable basic1 : list T -> Z -> T -> outcome (list D).
Variable basic2 : list (list T) -> Z -> Z -> T -> outcome (list (list D)).
Local Notation CalculateStatistics := (CalculateStatistics dNODATA basic1 basic2).
Local Notation GetStatistics := (GetStatistics feqD dNODATA basic1 basic2).

(** The map of single values is complete, so it is not re-initialised. *)
Lemma CalculateStatistics_named o : o_scalc o = false -> named (o_stats o) ->
  exists s2, (o_stats2 o <> [] -> s2 = o_stats2 o) /\ (o_stats2 o = [] -> named s2) /\
  CalculateStatistics o =
    (let r := o_r o in
     if r_is2d r && negb (isnull (r_data2d r)) then
      let* vs := basic2 (elems (r_data2d r)) (r_ncells r) (r_nlyrs r) (r_nodata r) in
      let* s2' := put_derived s2 (map Some vs) in
      Ok (set_stats o (o_stats o) s2' true)
    else
      let* vs := basic1 (elems (r_data r)) (r_ncells r) (r_nodata r) in
      let* s' := put_derived (o_stats o) vs in
      Ok (set_stats o s' s2 true)).
Proof.
  clear feqD junkD. intros E N. unfold CopyModel.CalculateStatistics. rewrite E.
  pose proof (initial_named dNODATA _ N) as I. destruct (named_cons _ N) as (kv & t & Et).
  destruct (o_stats2 o) as [|kv2 t2] eqn:E2.
  - exists (fold_left (fun m k => emplace m k None) stats_names []). split; [congruence|]. split; [intros _|].
    { apply named_initial. right. reflexivity. }
    unfold InitialStatsMap. rewrite I. rewrite Et. reflexivity.
  - exists (kv2 :: t2). split; [reflexivity|]. split; [discriminate|]. rewrite Et. reflexivity.
Qed.

Lemma name_index k : In k stats_names -> exists i, nth_error derived_names i = Some k.
Proof. intros I. apply derived_in in I. apply In_nth_error, I. Qed.


Lemma ValidateRasterData_alike (ra rb : raster T) : r_is2d rb = r_is2d ra ->
  (if r_is2d ra then r_data2d rb = r_data2d ra else r_data rb = r_data ra) ->
  ValidateRasterData rb = ValidateRasterData ra.
Proof. intros E H. unfold ValidateRasterData. rewrite E. destruct (r_is2d ra); rewrite H; cbn; [reflexivity|now rewrite !orb_false_r]. Qed.

Theorem GetStatistics_alike a b name lyr s v : stats_alike a b ->
  GetStatistics a name lyr = Ok (s, v) -> exists s', GetStatistics b name lyr = Ok (s', v).
Proof.
  intros (E2 & El & Ec & En & Ed & Es & Na & Nb & H). unfold CopyModel.GetStatistics.
  assert (V : ValidateRasterData (o_r b) = ValidateRasterData (o_r a)).
  { apply ValidateRasterData_alike; [exact E2|]. destruct (r_is2d (o_r a)); apply H. }
  assert (VL : ValidateLayer (o_r b) lyr = ValidateLayer (o_r a) lyr) by (unfold ValidateLayer; now rewrite El).
  rewrite V, VL, Ed, E2.
  destruct (negb (ValidateRasterData (o_r a)) || negb (ValidateLayer (o_r a) lyr)) eqn:Inv.
  { intros X. injection X as <- <-. eauto. }
  apply orb_false_iff in Inv. destruct Inv as [Inv _]. apply negb_false_iff in Inv. unfold ValidateRasterData in Inv.
  destruct (r_is2d (o_r a)) eqn:D2; cbn [andb negb orb] in *.
  - destruct H as (Hd & N2a & N2b & HL). rewrite Hd. rewrite Inv. rewrite HL.
    destruct (lookup (o_stats2 a) (GetUpper name)) as [p|] eqn:Lp; [|intros X; injection X as <- <-; eauto].
    assert (In (GetUpper name) stats_names) as IN.
    { apply (named_lookup_in (o_stats2 a)); [exact N2a|congruence]. }
    destruct (isnull p) eqn:Np.
    + destruct (CalculateStatistics_named (set_stats a (o_stats a) (o_stats2 a) false)) as (s2a & A1 & _ & Xa); [reflexivity|exact Na|].
      destruct (CalculateStatistics_named (set_stats b (o_stats b) (o_stats2 b) false)) as (s2b & B1 & _ & Xb); [reflexivity|exact Nb|].
      cbn [o_stats2 set_stats] in A1, B1.
      rewrite A1 in Xa by (destruct (named_cons _ N2a) as (? & ? & ->); discriminate).
      rewrite B1 in Xb by (destruct (named_cons _ N2b) as (? & ? & ->); discriminate).
      rewrite Xa, Xb. clear Xa Xb A1 B1. cbn [o_r set_stats o_stats o_stats2]. cbv zeta. rewrite E2, D2, Hd, Inv, Ec, El, En. cbn [andb].
      destruct (basic2 _ _ _ _) as [vs| |]; cbn [obind]; try discriminate.
      destruct (put_derived (o_stats2 a) (map Some vs)) as [ma| |] eqn:Pa; cbn [obind]; try discriminate.
      pose proof (put_derived_short _ _ _ Pa) as Len.
      destruct (put_derived_any (o_stats2 a) (map Some vs) Len N2a) as (ma' & Pa' & _ & La). rewrite Pa in Pa'. injection Pa' as <-.
      destruct (put_derived_any (o_stats2 b) (map Some vs) Len N2b) as (mb & Pb & _ & Lb). rewrite Pb. cbn [obind].
      unfold at_get. cbn [o_stats2 set_stats]. destruct (name_index _ IN) as (i & Hi). rewrite (La i _ Hi), (Lb i _ Hi).
      destruct (nth_error (map Some vs) i) as [q|]; cbn [obind]; try discriminate.
      destruct (deref q) as [l| |]; cbn [obind]; try discriminate. destruct (aget l (lyr - 1)) as [w| |]; cbn [obind]; try discriminate.
      intros X. injection X as <- <-. eauto.
    + cbn [obind]. unfold at_get. rewrite HL, Lp. cbn [obind]. destruct (deref p) as [l| |]; cbn [obind]; try discriminate.
      destruct (aget l (lyr - 1)) as [w| |]; cbn [obind]; try discriminate. intros X. injection X as <- <-. eauto.
  - destruct H as (Hd & HL). rewrite Es.
    destruct (lookup (o_stats a) (GetUpper name)) as [x|] eqn:Lx.
    2:{ assert (lookup (o_stats b) (GetUpper name) = None) as ->.
        { destruct (lookup (o_stats b) (GetUpper name)) eqn:Y; [|reflexivity]. exfalso.
          assert (In (GetUpper name) stats_names) by (apply (named_lookup_in (o_stats b)); [exact Nb|congruence]).
          pose proof (named_lookup (o_stats a) _ Na H). congruence. }
        intros X; injection X as <- <-; eauto. }
    assert (In (GetUpper name) stats_names) as IN by (apply (named_lookup_in (o_stats a)); [exact Na|congruence]).
    pose proof (named_lookup (o_stats b) _ Nb IN) as Lb. destruct (lookup (o_stats b) (GetUpper name)) as [y|] eqn:Ly; [clear Lb|congruence].
    destruct (o_scalc a) eqn:Sa.
    + (* calculated: CalculateStatistics returns at once *)
      assert (Ca : CalculateStatistics a = Ok a) by (unfold CopyModel.CalculateStatistics; now rewrite Sa).
      assert (Cb : CalculateStatistics b = Ok b) by (unfold CopyModel.CalculateStatistics; now rewrite Es).
      specialize (HL eq_refl). rewrite HL in Ly. assert (y = x) by congruence. subst y.
      rewrite Ca, Cb. assert (forall c : bool, (if c then Ok a else Ok a) = Ok a) as -> by (intros []; reflexivity).
      assert (forall c : bool, (if c then Ok b else Ok b) = Ok b) as -> by (intros []; reflexivity). cbn [obind].
      unfold at_get. rewrite HL, Lx. cbn [obind]. intros X. injection X as <- <-. eauto.
    + cbn [negb]. rewrite !orb_true_r.
      destruct (CalculateStatistics_named a Sa Na) as (s2a & _ & _ & Xa).
      destruct (CalculateStatistics_named b Es Nb) as (s2b & _ & _ & Xb).
      rewrite Xa, Xb. clear Xa Xb. cbv zeta. rewrite E2, D2, Hd, Ec, En. cbn [andb].
      destruct (basic1 _ _ _) as [vs| |]; cbn [obind]; try discriminate.
      destruct (put_derived (o_stats a) vs) as [ma| |] eqn:Pa; cbn [obind]; try discriminate.
      pose proof (put_derived_short _ _ _ Pa) as Len.
      destruct (put_derived_any (o_stats a) vs Len Na) as (ma' & Pa' & _ & La). rewrite Pa in Pa'. injection Pa' as <-.
      destruct (put_derived_any (o_stats b) vs Len Nb) as (mb & Pb & _ & Lb). rewrite Pb. cbn [obind].
      unfold at_get. cbn [o_stats set_stats]. destruct (name_index _ IN) as (i & Hi). rewrite (La i _ Hi), (Lb i _ Hi).
      destruct (nth_error vs i) as [w|]; cbn [obind]; try discriminate. intros X. injection X as <- <-. eauto.
Qed.
End Stats.
