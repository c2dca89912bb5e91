From Coq Require Import ZArith List Bool Lia Permutation ZifyBool.
From Flocq Require Import BinarySingleNaN.
From Verif Require Import Base RasterModel RasterSpec StrModel MapModel BasicModel FloatModel TypeModel CoordFloatModel CopyModel NumModel AscModel CellModel LayersModel ListLib ParModel ParSpec ParProofs ParProofs2.
Import ListNotations.
Open Scope Z_scope.
Open Scope outcome_scope.

(** Cells of a table. *)
Definition at2 {A} (d : list (list A)) (i j : Z) : outcome A := let* c := aget d i in aget c j.
Lemma aset_inv {A} (a : list A) i v a' : aset a i v = Ok a' -> 0 <= i < Z.of_nat (length a) /\ a' = upd a (Z.to_nat i) v.
Proof. unfold aset. destruct (Z.ltb_spec i 0); [discriminate|]. destruct (Nat.ltb_spec (Z.to_nat i) (length a)); [|discriminate]. intros E. injection E as <-. split; [lia|reflexivity]. Qed.
Lemma aget_upd {A} (a : list A) i v j : 0 <= i < Z.of_nat (length a) -> aget (upd a (Z.to_nat i) v) j = if j =? i then Ok v else aget a j.
Proof.
  intros B. unfold aget. rewrite upd_nth. destruct (Z.ltb_spec j 0).
  - destruct (Z.eqb_spec j i); [lia|reflexivity].
  - destruct (Z.eqb_spec j i) as [->|N].
    + rewrite Nat.eqb_refl. replace (Z.to_nat i <? length a)%nat with true by lia. reflexivity.
    + replace (Z.to_nat j =? Z.to_nat i)%nat with false by lia. reflexivity.
Qed.
Lemma put_at2 d i k v d' : put d i k v = Ok d' -> (exists x, at2 d i k = Ok x) /\ forall a b, at2 d' a b = if (a =? i) && (b =? k) then Ok v else at2 d a b.
Proof.
  unfold put. destruct (aget d i) as [c| |] eqn:G; cbn [obind]; try discriminate. destruct (aset c k v) as [c'| |] eqn:S; cbn [obind]; try discriminate. intros P.
  apply aset_inv in S. destruct S as [B ->]. apply aset_inv in P. destruct P as [B' ->]. split.
  - unfold at2. rewrite G. cbn [obind]. destruct (aget_in c k B) as (x & E & _). eauto.
  - intros a b. unfold at2. rewrite aget_upd by exact B'. destruct (Z.eqb_spec a i) as [->|N]; cbn [andb obind]; [|reflexivity]. rewrite aget_upd by exact B. rewrite G. reflexivity.
Qed.

Section Layer.
Variables (own h : smap f64) (nd : num) (vals : list num) (lyr : Z).
Notation place := (layer_place own h).
Definition seen_value (row col : Z) : num := match place row col with Some j => let v := nth (Z.to_nat j) vals nd in if layer_nodata h v then nd else v | None => nd end.
Definition has (row col : Z) : Prop := forall j, place row col = Some j -> 0 <= j < Z.of_nat (length vals).
Lemma other_put row col cell d d' : AddOtherLayer own nd row col cell lyr h (Some vals) d = Ok d' -> has row col /\ put d cell lyr (seen_value row col) = Ok d'.
Proof.
  unfold AddOtherLayer, has, seen_value, layer_place, layer_nodata. destruct (at_get h K_NCOLS) as [cd| |]; cbn [obind]; try discriminate. destruct (f_int cd) as [cols| |]; cbn [obind]; try discriminate.
  destruct (at_get h K_NODATA) as [lnd| |]; cbn [obind]; try discriminate. destruct (own_geo own) as [g| |]; cbn [obind]; try discriminate. destruct (layer_geo h) as [lg| |]; cbn [obind]; try discriminate.
  destruct (fPositionByCoordinate lg _ _) as [p| |]; cbn [obind]; try discriminate. destruct ((fst p =? -1) || (snd p =? -1)); [intros E; split; [discriminate|exact E]|].
  unfold imul. destruct (in_intb (fst p * cols)); cbn [obind deref]; try discriminate. destruct (aget vals (fst p * cols + snd p)) as [v| |] eqn:G; cbn [obind]; try discriminate. intros E. apply aget_inv in G. destruct G as [P G]. split.
  - intros j J. injection J as <-. split; [exact P|]. assert (Z.to_nat (fst p * cols + snd p) < length vals)%nat by (apply nth_error_Some; congruence). lia.
  - rewrite (nth_error_nth _ _ nd G). exact E.
Qed.

(** [d'] is [d] with layer [lyr] of the cells [L] set to [V]. *)
Definition eff (V : Z -> num) (L : list Z) (d d' : list (list num)) : Prop :=
  (forall c, In c L -> exists x, at2 d c lyr = Ok x) /\ forall a b, at2 d' a b = if existsb (Z.eqb a) L && (b =? lyr) then Ok (V a) else at2 d a b.
Lemma eff_nil V d : eff V [] d d.
Proof. split; [intros c []|reflexivity]. Qed.
Lemma eff_one V c v d d' : put d c lyr v = Ok d' -> v = V c -> eff V [c] d d'.
Proof.
  intros P ->. apply put_at2 in P. destruct P as [X P]. split; [intros a [<-|[]]; exact X|]. intros a b. rewrite P. cbn [existsb]. rewrite orb_false_r. destruct (Z.eqb_spec a c) as [->|]; reflexivity.
Qed.
Lemma eff_app V L1 L2 d d1 d2 : eff V L1 d d1 -> eff V L2 d1 d2 -> eff V (L1 ++ L2) d d2.
Proof.
  intros [X1 E1] [X2 E2]. split.
  - intros c I. apply in_app_or in I. destruct I as [I|I]; [apply X1, I|]. destruct (X2 c I) as (x & Q). rewrite E1 in Q. destruct (existsb (Z.eqb c) L1 && (lyr =? lyr)) eqn:B; [|eauto]. apply andb_true_iff in B. destruct B as [B _]. apply existsb_exists in B. destruct B as (c' & I' & Q'). apply Z.eqb_eq in Q'. subst c'. apply X1, I'.
  - intros a b. rewrite E2, E1, existsb_app. destruct (existsb (Z.eqb a) L1), (existsb (Z.eqb a) L2), (b =? lyr); reflexivity.
Qed.
Lemma eff_col0 V L d d' : lyr <> 0 -> eff V L d d' -> forall a, at2 d' a 0 = at2 d a 0.
Proof. intros N [_ E] a. rewrite E. replace (0 =? lyr) with false by lia. rewrite andb_false_r. reflexivity. Qed.
Lemma eff_memory V L d d' (n : Z) {D} (m0 : mem num D) : eff V L d d' -> (forall a, In a L <-> 0 <= a < n) -> shows_table m0 d ->
  (forall i, 0 <= i < n -> m0 (A_raster2, i, lyr) <> None) /\ shows_table (updated m0 (newc A_raster2 n lyr (fun i => WT (V i)))) d'.
Proof.
  intros [X E] LN S. split.
  - intros i B. apply LN in B. destruct (X i B) as (x & Q). unfold at2 in Q. destruct (aget d i) as [c| |] eqn:G; try discriminate. rewrite (S i c lyr x G Q). discriminate.
  - intros i row j x G1 G2. assert (Q : at2 d' i j = Ok x) by (unfold at2; rewrite G1; exact G2). rewrite E in Q. destruct (existsb (Z.eqb i) L && (j =? lyr)) eqn:B.
    + apply andb_true_iff in B. destruct B as [B J]. apply Z.eqb_eq in J. subst j. apply existsb_exists in B. destruct B as (i' & I & Q'). apply Z.eqb_eq in Q'. subst i'. injection Q as <-. rewrite newc_at by (apply LN, I). reflexivity.
    + unfold at2 in Q. destruct (aget d i) as [c| |] eqn:G; try discriminate. rewrite updated_none; [apply (S i c j x G Q)|]. apply newc_none. intros i' B' Q'. assert (I1 : i' = i) by congruence. assert (I2 : j = lyr) by congruence. subst i' j. apply LN in B'. apply not_true_iff_false in B. apply B. apply andb_true_iff. split; [|apply Z.eqb_refl]. apply existsb_exists. exists i. split; [exact B'|apply Z.eqb_refl].
Qed.

(** By positions. *)
Lemma positions_eff ks cols ord : forall d d', ofold (by_position own nd (Some ks) cols lyr h (Some vals)) ord d = Ok d' ->
  let key i := nth (Z.to_nat i) ks 0 in
  (forall i, In i ord -> has (Z.quot (key (Z.of_nat i)) cols) (Z.rem (key (Z.of_nat i)) cols)) /\
  eff (fun i => seen_value (Z.quot (key i) cols) (Z.rem (key i) cols)) (map Z.of_nat ord) d d'.
Proof.
  induction ord as [|i ord IH]; intros d d' E key; cbn [ofold map] in *.
  - injection E as <-. split; [intros i []|apply eff_nil].
  - destruct (by_position own nd (Some ks) cols lyr h (Some vals) d i) as [d1| |] eqn:S; cbn [obind] in E; try discriminate. destruct (IH d1 d' E) as [H F]. unfold by_position in S. cbn [deref obind] in S. destruct (aget ks (Z.of_nat i)) as [k| |] eqn:G; cbn [obind] in S; try discriminate.
    assert (K : key (Z.of_nat i) = k) by (apply aget_inv in G; destruct G as [_ G]; apply nth_error_nth, G). apply other_put in S. destruct S as [HH P]. split.
    + intros j [<-|J]; [rewrite K; exact HH|apply H, J].
    + apply (eff_app _ [Z.of_nat i] (map Z.of_nat ord) d d1 d'); [|exact F]. eapply eff_one; [exact P|]. rewrite K. reflexivity.
Qed.
Lemma schedule_in n ord : schedule n ord -> 0 <= n -> forall a, In a (map Z.of_nat ord) <-> 0 <= a < n.
Proof.
  unfold schedule. intros P N a. rewrite in_map_iff. split.
  - intros (x & <- & I). apply (Permutation_in _ P) in I. apply in_seq in I. lia.
  - intros B. exists (Z.to_nat a). split; [lia|]. apply (Permutation_in _ (Permutation_sym P)). apply in_seq. lia.
Qed.
Lemma positions_seq {D R} ks cols ord d d' (m0 : mem num D) : schedule (Z.of_nat (length ks)) ord ->
  ofold (by_position own nd (Some ks) cols lyr h (Some vals)) ord d = Ok d' -> shows_table m0 d ->
  holds1 m0 A_posidx (Z.of_nat (length ks)) (fun i => WI (nth (Z.to_nat i) ks 0)) -> holds1 m0 A_layer (Z.of_nat (length vals)) (fun i => WT (nth (Z.to_nat i) vals nd)) ->
  exists m1, parallel_for (Z.of_nat (length ks)) (@layer_pos num D R place (layer_nodata h) nd cols lyr) m0 m1 (fun _ => []) /\ shows_table m1 d'.
Proof.
  intros S E T HI HL. destruct (positions_eff ks cols ord d d' E) as [HS F]. pose proof (schedule_in _ _ S ltac:(lia)) as LN. destruct (eff_memory _ _ _ _ _ m0 F LN T) as [TH M]. eexists. split; [|exact M].
  unfold seen_value. apply (layer_pos_par place (layer_nodata h) nd cols lyr (Z.of_nat (length ks)) m0 (fun i => nth (Z.to_nat i) ks 0) (fun j => nth (Z.to_nat j) vals nd)); [exact TH|exact HI|].
  intros i j B Q. apply HL. assert (I : In (Z.to_nat i) ord) by (unfold schedule in S; apply (Permutation_in _ (Permutation_sym S)); apply in_seq; lia). specialize (HS _ I). cbv zeta in HS. rewrite Z2Nat.id in HS by lia. apply HS, Q.
Qed.

(** By rows. *)
Section Rows.
Variables (cols : Z) (d0 : list (list num)).
Hypothesis LY : lyr <> 0.
Definition first (a : Z) : num := match at2 d0 a 0 with Ok v => v | _ => nd end.
Definition row_value (a : Z) : num := if cells_equal nd (first a) then nd else seen_value (a / cols) (a mod cols).
Lemma cells_eff i js : (forall j, In j js -> 0 <= j < cols) -> forall d d', (forall a, at2 d a 0 = at2 d0 a 0) ->
  ofold (fun d j => let cell := Z.of_nat i * cols + j in let* c := aget d cell in let* v := aget c 0 in
         if cells_equal nd v then put d cell lyr nd else AddOtherLayer own nd (Z.of_nat i) j cell lyr h (Some vals) d) js d = Ok d' ->
  (forall j, In j js -> at2 d0 (Z.of_nat i * cols + j) 0 = Ok (first (Z.of_nat i * cols + j)) /\ (cells_equal nd (first (Z.of_nat i * cols + j)) = false -> has (Z.of_nat i) j)) /\ eff row_value (map (fun j => Z.of_nat i * cols + j) js) d d'.
Proof.
  induction js as [|j js IH]; intros IN d d' C E; cbn [ofold map] in *.
  - injection E as <-. split; [intros j []|apply eff_nil].
  - set (cell := Z.of_nat i * cols + j) in *. destruct (aget d cell) as [c| |] eqn:G; cbn [obind] in E; try discriminate. destruct (aget c 0) as [v| |] eqn:G0; cbn [obind] in E; try discriminate.
    assert (A : at2 d0 cell 0 = Ok v) by (rewrite <- C; unfold at2; rewrite G; exact G0). assert (FV : first cell = v) by (unfold first; rewrite A; reflexivity).
    assert (J : 0 <= j < cols) by (apply IN; left; reflexivity).
    assert (DM : cell / cols = Z.of_nat i /\ cell mod cols = j) by (unfold cell; rewrite Z.add_comm; split; [rewrite Z.div_add, Z.div_small; lia|rewrite Z.mod_add, Z.mod_small; lia]). destruct DM as [D1 D2].
    assert (STEP : exists d1, ofold (fun d j => let cell := Z.of_nat i * cols + j in let* c := aget d cell in let* v := aget c 0 in
         if cells_equal nd v then put d cell lyr nd else AddOtherLayer own nd (Z.of_nat i) j cell lyr h (Some vals) d) js d1 = Ok d' /\ eff row_value [cell] d d1 /\ (cells_equal nd v = false -> has (Z.of_nat i) j)).
    { destruct (cells_equal nd v) eqn:ND.
      - destruct (put d cell lyr nd) as [d1| |] eqn:P; cbn [obind] in E; try discriminate. exists d1. split; [exact E|]. split; [|discriminate]. eapply eff_one; [exact P|]. unfold row_value. rewrite FV, ND. reflexivity.
      - destruct (AddOtherLayer own nd (Z.of_nat i) j cell lyr h (Some vals) d) as [d1| |] eqn:P; cbn [obind] in E; try discriminate. apply other_put in P. destruct P as [HH P]. exists d1. split; [exact E|]. split; [|auto]. eapply eff_one; [exact P|]. unfold row_value. rewrite FV, ND, D1, D2. reflexivity. }
    destruct STEP as (d1 & E1 & F1 & H1). destruct (IH (fun j I => IN j (or_intror I)) d1 d') as [HS F]; [intros a; rewrite (eff_col0 _ _ _ _ LY F1); apply C|exact E1|]. split.
    + intros j' [<-|I]; [|apply HS, I]. fold cell. rewrite FV. split; [exact A|exact H1].
    + apply (eff_app _ [cell] _ d d1 d' F1 F).
Qed.
Lemma rows_eff ord : forall d d', (forall a, at2 d a 0 = at2 d0 a 0) -> ofold (by_row own nd cols lyr h (Some vals)) ord d = Ok d' ->
  (forall i j, In i ord -> 0 <= j < cols -> at2 d0 (Z.of_nat i * cols + j) 0 = Ok (first (Z.of_nat i * cols + j)) /\ (cells_equal nd (first (Z.of_nat i * cols + j)) = false -> has (Z.of_nat i) j)) /\
  eff row_value (concat (map (fun i => map (fun j => Z.of_nat i * cols + j) (zseq cols)) ord)) d d'.
Proof.
  induction ord as [|i ord IH]; intros d d' C E; cbn [ofold map concat] in *.
  - injection E as <-. split; [intros i j []|apply eff_nil].
  - destruct (by_row own nd cols lyr h (Some vals) d i) as [d1| |] eqn:S; cbn [obind] in E; try discriminate. unfold by_row in S. destruct (cells_eff i (zseq cols) (fun j J => proj1 (zseq_In cols j) J) d d1 C S) as [H1 F1].
    destruct (IH d1 d') as [HS F]; [intros a; rewrite (eff_col0 _ _ _ _ LY F1); apply C|exact E|]. split.
    + intros i' j [<-|I] J; [apply H1, zseq_In, J|apply HS; assumption].
    + apply (eff_app _ _ _ d d1 d' F1 F).
Qed.
End Rows.
Lemma rows_seq {D R} rows cols ord d d' (m0 : mem num D) : 0 < lyr -> 0 <= rows -> 0 < cols -> schedule rows ord ->
  ofold (by_row own nd cols lyr h (Some vals)) ord d = Ok d' -> shows_table m0 d -> holds1 m0 A_layer (Z.of_nat (length vals)) (fun i => WT (nth (Z.to_nat i) vals nd)) ->
  exists m1, parallel_for rows (@layer_row num D R place (layer_nodata h) (cells_equal nd) nd cols lyr) m0 m1 (fun _ => []) /\ shows_table m1 d'.
Proof.
  intros LP RP CP S E T HL. destruct (rows_eff cols d ltac:(lia) ord d d' (fun a => eq_refl) E) as [HS F]. pose proof (schedule_in _ _ S RP) as LN.
  assert (IN : forall i, 0 <= i < rows -> In (Z.to_nat i) ord) by (intros i B; unfold schedule in S; apply (Permutation_in _ (Permutation_sym S)); apply in_seq; lia).
  assert (CELLS : forall a, In a (concat (map (fun i => map (fun j => Z.of_nat i * cols + j) (zseq cols)) ord)) <-> 0 <= a < rows * cols).
  { intros a. rewrite in_concat. split.
    - intros (l & L & A). apply in_map_iff in L. destruct L as (i & <- & I). apply in_map_iff in A. destruct A as (j & <- & J). apply zseq_In in J. assert (B : 0 <= Z.of_nat i < rows) by (apply LN, in_map, I). nia.
    - intros B. assert (Q : 0 <= a / cols < rows) by (split; [apply Z.div_pos; lia|apply Z.div_lt_upper_bound; lia]). exists (map (fun j => Z.of_nat (Z.to_nat (a / cols)) * cols + j) (zseq cols)). split; [apply (in_map (fun i => map (fun j => Z.of_nat i * cols + j) (zseq cols))), IN, Q|].
      apply in_map_iff. exists (a mod cols). split; [rewrite Z2Nat.id by lia; pose proof (Z.div_mod a cols); lia|]. apply zseq_In. apply Z.mod_pos_bound. lia. }
  destruct (eff_memory _ _ _ _ _ m0 F CELLS T) as [TH M]. eexists. split; [|exact M].
  apply (layer_row_par place (layer_nodata h) (cells_equal nd) nd rows cols lyr m0 (first d) (fun j => nth (Z.to_nat j) vals nd)); [exact LP|lia|exact TH| |].
  - intros a B. assert (Q : 0 <= a / cols < rows) by (split; [apply Z.div_pos; lia|apply Z.div_lt_upper_bound; lia]). destruct (HS (Z.to_nat (a / cols)) (a mod cols) (IN _ Q) (Z.mod_pos_bound a cols CP)) as [A _]. rewrite Z2Nat.id in A by lia. replace (a / cols * cols + a mod cols) with a in A by (pose proof (Z.div_mod a cols); lia).
    unfold at2 in A. destruct (aget d a) as [c| |] eqn:G; try discriminate. apply (T a c 0 _ G A).
  - intros r c j B C ND Q. apply HL. destruct (HS (Z.to_nat r) c (IN _ B) C) as [_ A]. rewrite Z2Nat.id in A by lia. apply (A ND), Q.
Qed.
End Layer.
