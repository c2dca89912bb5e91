From Coq Require Import ZArith List Bool Lia Permutation ZifyBool.
From Verif Require Import Base RasterModel RasterSpec ListLib ParModel ParSpec ParProofs ParProofs2 ShareModel ShareProofs ShareProofs3 MaskShareModel MaskShareSpec MaskShareProofs.
Import ListNotations.
Open Scope Z_scope.

Section M.
Context {T D : Type}.
Notation prog := (prog T D learnt).
Implicit Types (p q : prog) (m : mem T D) (ws : list (loc * word T D)).
Variable feq : T -> T -> bool.

Lemma fresh_in (nd : T) n l (w : word T D) : In (l, w) (fresh nd n) <->
  (l, w) = (F_cells, WI n) \/ (l, w) = (F_data, WI 0) \/ (l, w) = (F_data, WI 1) \/ (exists i, 0 <= i < n /\ (l, w) = ((A_raster, i, 0), WT nd)) \/
  (l, w) = (F_pos, WI 1) \/ (exists i, 0 <= i < n /\ ((l, w) = ((A_pos, i, 0), WI 0) \/ (l, w) = ((A_pos, i, 1), WI 0))) \/
  (l, w) = (F_posidx, WI 1) \/ (exists i, 0 <= i < n /\ (l, w) = ((A_posidx, i, 0), WI 0)).
Proof.
  unfold fresh. rewrite !in_app_iff, !in_map_iff, in_flat_map. cbn [In]. split.
  - intros [[H|[H|[H|[]]]]|[(i & H & I)|[[H|[]]|[(i & I & [H|[H|[]]])|[[H|[]]|(i & H & I)]]]]]; rewrite ?zseq_In in *; rewrite <- H.
    + auto.
    + auto.
    + auto.
    + do 3 right. left. eauto.
    + tauto.
    + do 5 right. left. eauto.
    + do 5 right. left. eauto.
    + tauto.
    + do 7 right. eauto.
  - intros [H|[H|[H|[(i & I & H)|[H|[(i & I & [H|H])|[H|(i & I & H)]]]]]]]; rewrite H.
    + left. auto.
    + left. auto.
    + left. auto.
    + right. left. exists i. rewrite zseq_In. auto.
    + do 2 right. left. auto.
    + do 3 right. left. exists i. rewrite zseq_In. auto.
    + do 3 right. left. exists i. rewrite zseq_In. auto.
    + do 4 right. left. auto.
    + do 5 right. exists i. rewrite zseq_In. auto.
Qed.
Lemma fst_in l ws : In l (map fst ws) <-> exists w, In (l, w) ws.
Proof. rewrite in_map_iff. split; [intros ([x w] & E & I); cbn in E; subst; eauto|intros (w & I); exists (l, w); auto]. Qed.

Lemma filled_in cols vs : forall k l, In l (map fst (@filled T D cols k vs)) -> exists i, k <= i < k + Z.of_nat (length vs) /\ (l = (A_raster, i, 0) \/ l = (A_pos, i, 0) \/ l = (A_pos, i, 1) \/ l = (A_posidx, i, 0)).
Proof.
  induction vs as [|[[a b] x] vs IH]; intros k l I; [destruct I|]. cbn [filled map app fst length] in *. destruct I as [<-|[<-|[<-|[<-|I]]]].
  1-4: exists k; split; [lia|tauto].
  destruct (IH (k + 1) l I) as (i & B & E). exists i. split; [lia|exact E].
Qed.
Lemma filled_pos cols vs : forall k m i a b x, nth_error vs i = Some (a, b, x) ->
  sets (@filled T D cols k vs) m (A_pos, k + Z.of_nat i, 0) = Some (WI a) /\ sets (@filled T D cols k vs) m (A_pos, k + Z.of_nat i, 1) = Some (WI b) /\
  sets (@filled T D cols k vs) m (A_posidx, k + Z.of_nat i, 0) = Some (WI (a * cols + b)) /\ sets (@filled T D cols k vs) m (A_raster, k + Z.of_nat i, 0) = Some (WT x).
Proof.
  induction vs as [|[[a0 b0] x0] vs IH]; intros k m i a b x E; [destruct i; discriminate|]. cbn [filled]. rewrite sets_app. destruct i as [|i]; cbn [nth_error] in E.
  - injection E as -> -> ->. rewrite Z.add_0_r.
    assert (N : forall arr j, ~ In (arr, k, j) (map fst (@filled T D cols (k + 1) vs))) by (intros arr j I; destruct (filled_in _ _ _ _ I) as (i & B & [Q|[Q|[Q|Q]]]); injection Q; intros; lia).
    assert (OT : forall (mm : mem T D) a1 j1 a2 j2 w, (a1, j1) <> (a2, j2) -> set mm (a1, k, j1) w (a2, k, j2) = mm (a2, k, j2)) by (intros; apply set_other; congruence).
    do 2 (split; [rewrite sets_out by apply N; cbn [sets fold_left fst snd]; rewrite !OT by discriminate; apply set_same|]).
    split; rewrite sets_out by apply N; cbn [sets fold_left fst snd]; [apply set_same|rewrite !OT by discriminate; apply set_same].
  - replace (k + Z.of_nat (S i)) with (k + 1 + Z.of_nat i) by lia. apply IH, E.
Qed.

Lemma grid_cells_in rows cols i j : In (i, j) (grid_cells rows cols) <-> 0 <= i < rows /\ 0 <= j < cols.
Proof.
  unfold grid_cells. rewrite in_flat_map. split.
  - intros (a & A & B). apply in_map_iff in B. destruct B as (b & E & B). injection E as -> ->. apply zseq_In in A, B. auto.
  - intros [A B]. exists i. split; [apply zseq_In, A|]. apply in_map_iff. exists j. split; [reflexivity|apply zseq_In, B].
Qed.
Lemma grid_len rows cols : 0 <= rows -> 0 <= cols -> Z.of_nat (length (grid_cells rows cols)) = rows * cols.
Proof.
  intros A B. unfold grid_cells. assert (H : forall l : list Z, length (flat_map (fun i => map (fun j => (i, j)) (zseq cols)) l) = (length l * Z.to_nat cols)%nat).
  { induction l as [|x l IH]; [reflexivity|]. cbn [flat_map length]. rewrite app_length, map_length, zseq_length, IH. lia. }
  rewrite H, zseq_length. nia.
Qed.
Lemma filter_len {A} (f : A -> bool) l : (length (filter f l) <= length l)%nat.
Proof. induction l as [|a l IH]; cbn; [lia|]. destruct (f a); cbn; lia. Qed.

Variables (rows cols : Z) (nd : T) (value : Z -> Z -> T) (m0 : mem T D).
Hypothesis HR : 0 <= rows.
Hypothesis HC : 0 <= cols.
Let ps := valid_cells feq nd value rows cols.
Let n := Z.of_nat (length ps).
Let vs := vcells value ps.
Hypothesis HM : holds_grid m0 nd value rows cols n.
Let rest : prog := rdI F_cells (fun n => read_posM (zseq n) [] (fun ps => Add (rows, cols, ps) Done)).
Let final := @filled T D cols 0 vs ++ [(F_calc, WI 1)].

Lemma n_le : n <= rows * cols.
Proof. rewrite <- grid_len by assumption. unfold n, ps, valid_cells. pose proof (filter_len (fun c => negb (feq (value (fst c) (snd c)) nd)) (grid_cells rows cols)). lia. Qed.
Lemma vs_len : length vs = length ps. Proof. apply map_length. Qed.

Lemma goes_reads : exists ev, In (false, F_pos) ev /\ goes (UseMask feq) m0 [] ev (writes (fresh nd n) (writes final rest)) m0.
Proof.
  destruct HM as (H2 & HD & Hr & Hc & HN & HP & HK & HI & HL & HV & _).
  destruct (goes_valid feq cols nd value (grid_cells rows cols) [] (fun vs => rdT F_nodata (fun nd => writes (fresh nd (Z.of_nat (length vs)) ++ filled cols 0 vs ++ [(F_calc, WI 1)]) rest)) m0) as (ev & G).
  { intros i j I. apply grid_cells_in in I. apply HV; apply I. }
  { exact HN. }
  exists ([(false, F_rows); (false, F_cols); (false, F_pos); (false, F_2d); (false, F_data); (false, F_rows); (false, F_cols)] ++ ev ++ [(false, F_nodata)]). split; [right; right; left; reflexivity|].
  unfold UseMask, PositionsM, ValidateM, CalculateM, rdI.
  eapply goes_rd; [exact Hr|]. cbv beta iota. eapply goes_rd; [exact Hc|]. cbv beta iota. eapply goes_rd; [exact HP|]. cbv beta iota. cbn [Z.eqb negb].
  eapply goes_rd; [exact H2|]. cbv beta iota. cbn [Z.eqb]. eapply goes_rd; [exact HD|]. cbv beta iota. cbn [Z.eqb Pos.eqb negb]. eapply goes_rd; [exact Hr|]. cbv beta iota. eapply goes_rd; [exact Hc|]. cbv beta iota.
  change (@nil learnt) with (@nil learnt ++ []). eapply goes_trans; [exact G|]. eapply goes_rd; [exact HN|]. cbv beta iota. cbn [app]. change (vcells value _) with vs. rewrite vs_len. fold n. rewrite writes_app. constructor.
Qed.
Lemma there_raster i : 0 <= i < n -> m0 (A_raster, i, 0) <> None.
Proof.
  intros B. pose proof n_le. destruct HM as (_ & _ & _ & _ & _ & _ & _ & _ & _ & HV & _).
  assert (0 < cols) by nia. replace i with (i / cols * cols + i mod cols) by (rewrite Z.mul_comm; symmetry; apply Z.div_mod; lia).
  rewrite HV; [discriminate| |apply Z.mod_pos_bound; lia]. split; [apply Z.div_pos; lia|apply Z.div_lt_upper_bound; lia].
Qed.
Lemma fresh_there l : In l (map fst (@fresh T D nd n)) -> m0 l <> None.
Proof.
  intros I. apply fst_in in I. destruct I as (w & I). apply fresh_in in I. destruct HM as (H2 & HD & Hr & Hc & HN & HP & HK & HI & HL & HV & TP & TI).
  destruct I as [H|[H|[H|[(i & I & H)|[H|[(i & I & [H|H])|[H|(i & I & H)]]]]]]]; injection H as -> _; try congruence.
  - apply there_raster, I.
  - apply TP; lia.
  - apply TP; lia.
  - apply TI, I.
Qed.
Lemma final_there l : In l (map fst final) -> m0 l <> None.
Proof.
  unfold final. rewrite map_app, in_app_iff. destruct HM as (H2 & HD & Hr & Hc & HN & HP & HK & HI & HL & HV & TP & TI). intros [I|[<-|[]]].
  - destruct (filled_in _ _ _ _ I) as (i & B & E). rewrite vs_len in B. change (0 + Z.of_nat (length ps)) with n in B. destruct E as [->|[->|[->| ->]]]; [apply there_raster, B|apply TP; lia|apply TP; lia|apply TI, B].
  - exact HL.
Qed.
Let m1 := sets (fresh nd n) m0.
Let m2 := sets final m1.

Lemma fresh_positions : holds_positions m1 rows cols (repeat (0, 0) (length ps)).
Proof.
  destruct HM as (H2 & HD & Hr & Hc & HN & HP & HK & HI & HL & HV & TP & TI). unfold holds_positions, m1.
  assert (OUT : forall l, (forall w, ~ In (l, w) (@fresh T D nd n)) -> sets (fresh nd n) m0 l = m0 l) by (intros l H; apply sets_out; intros I; apply fst_in in I; destruct I as (w & I); apply (H w I)).
  assert (ONE : forall l w, In (l, w) (@fresh T D nd n) -> (forall x, In (l, x) (@fresh T D nd n) -> x = w) -> sets (fresh nd n) m0 l = Some w) by (intros l w I A; apply sets_same; [apply fst_in; eauto|exact A]).
  Ltac kill := let w := fresh "w" in let H := fresh "H" in intros w H; apply fresh_in in H; destruct H as [H|[H|[H|[(?i & ?I & H)|[H|[(?i & ?I & [H|H])|[H|(?i & ?I & H)]]]]]]]; first [discriminate H|injection H; intros; congruence].
  split; [rewrite OUT by kill; exact Hr|]. split; [rewrite OUT by kill; exact Hc|]. split; [apply ONE; [apply fresh_in; tauto|kill]|]. split; [rewrite repeat_length; change (Z.of_nat (length ps)) with n; apply ONE; [apply fresh_in; left; reflexivity|kill]|].
  intros i a b E. apply aget_inv in E. destruct E as [B E]. assert (L : (Z.to_nat i < length ps)%nat) by (rewrite <- (repeat_length (0, 0) (length ps)); apply nth_error_Some; congruence).
  rewrite (nth_error_repeat (0, 0) L) in E. injection E as <- <-. assert (I : 0 <= i < n) by (unfold n; lia).
  split; (apply ONE; [apply fresh_in; do 5 right; left; exists i; tauto|kill]).
Qed.
Lemma filled_positions : holds_positions m2 rows cols ps.
Proof.
  destruct fresh_positions as (Hr & Hc & HP & HK & _). unfold holds_positions, m2, final. rewrite repeat_length in HK.
  assert (OUT : forall k, k <> 7 -> sets (@filled T D cols 0 vs ++ [(F_calc, WI 1)]) m1 (A_field, k, 0) = m1 (A_field, k, 0)).
  { intros k NE. apply sets_out. rewrite map_app, in_app_iff. intros [I|[I|[]]]; [|injection I; congruence]. destruct (filled_in _ _ _ _ I) as (i & B & [E|[E|[E|E]]]); discriminate E. }
  split; [exact (eq_trans (OUT 3 ltac:(discriminate)) Hr)|]. split; [exact (eq_trans (OUT 4 ltac:(discriminate)) Hc)|]. split; [exact (eq_trans (OUT 8 ltac:(discriminate)) HP)|]. split; [exact (eq_trans (OUT 6 ltac:(discriminate)) HK)|]. intros i a b E. apply aget_inv in E. destruct E as [B E].
  assert (V : nth_error vs (Z.to_nat i) = Some (a, b, value a b)) by (unfold vs, vcells; rewrite nth_error_map, E; reflexivity).
  destruct (filled_pos cols vs 0 m1 _ _ _ _ V) as (P0 & P1 & _). replace (0 + Z.of_nat (Z.to_nat i)) with i in * by lia.
  rewrite !sets_app. cbn [sets fold_left fst snd]. rewrite !set_other by discriminate. auto.
Qed.

Lemma rest_run : exists ev, goes rest m2 [(rows, cols, ps)] ev Done m2.
Proof.
  destruct filled_positions as (Hr & Hc & HP & HK & HA). destruct (goes_pos ps 0 [] (fun ps => Add (rows, cols, ps) Done) m2) as (ev3 & _ & G3).
  { intros k a b E. apply HA, aget_ok; [lia|]. replace (Z.to_nat (0 + Z.of_nat k)) with k by lia. exact E. }
  exists ((false, F_cells) :: ev3 ++ []). unfold rest, rdI. eapply goes_rd; [exact HK|]. cbv beta iota. rewrite zseq_seq. change [(rows, cols, ps)] with ([] ++ [(rows, cols, ps)]). eapply goes_trans; [exact G3|]. apply goes_add. constructor.
Qed.
Lemma goes_seq (s : prog) p m ad ev q m' : goes p m ad ev q m' -> goes (seqp p s) m ad ev (seqp q s) m'.
Proof. induction 1; cbn [seqp]; econstructor; eauto. Qed.
(** One thread alone *)
Lemma mask_first : exists m', parallel_for 1 (fun _ => UseMask feq) m0 m' (fun _ => [(rows, cols, ps)]) /\ holds_positions m' rows cols ps /\
  (forall i a b, aget ps i = Ok (a, b) -> m' (A_posidx, i, 0) = Some (WI (a * cols + b)) /\ m' (A_raster, i, 0) = Some (WT (value a b))).
Proof.
  exists m2. destruct goes_reads as (ev & _ & G). destruct (goes_ready feq rows cols ps m2 filled_positions) as (ev' & _ & _ & G').
  split; [|split; [exact filled_positions|]].
  - apply (par_safe 1 _ m0 m2 (fun _ => [(rows, cols, ps)]) (fun _ _ => true) (fun _ _ => true)).
    + intros i _. assert (F : forall p : prog, fits (fun _ => true) (fun _ => true) p) by (induction p; cbn [fits]; auto). apply F.
    + intros i j l A B N. lia.
    + intros i _. exists m2. split; [|auto].
      assert (G1 : goes (writes (fresh nd n) (writes final rest)) m0 [] (map (fun lw => (true, fst lw)) (fresh nd n)) (writes final rest) m1) by (apply goes_writes, fresh_there).
      assert (G2 : goes (writes final rest) m1 [] (map (fun lw => (true, fst lw)) final) rest m2) by (apply goes_writes; intros l I; apply sets_there, final_there, I).
      destruct rest_run as (ev3 & G4).
      exact (goes_run _ _ _ _ _ (goes_trans _ _ _ _ _ _ G _ _ _ _ (goes_trans _ _ _ _ _ _ G1 _ _ _ _ (goes_trans _ _ _ _ _ _ G2 _ _ _ _ G4)))).
    + intros l H. discriminate (H 0 ltac:(lia)).
  - intros i a b E. apply aget_inv in E. destruct E as [B E].
    assert (V : nth_error vs (Z.to_nat i) = Some (a, b, value a b)) by (unfold vs, vcells; rewrite nth_error_map, E; reflexivity).
    destruct (filled_pos cols vs 0 m1 _ _ _ _ V) as (_ & _ & P2 & P3). replace (0 + Z.of_nat (Z.to_nat i)) with i in * by lia.
    unfold m2, final. rewrite !sets_app. cbn [sets fold_left fst snd]. rewrite !set_other by discriminate. auto.
Qed.

(** Two threads: the second comes between *)
Lemma mask_race : exists tr m (p0 p1 : thread T D learnt), exec m0 (start (fun _ => UseMask feq) [[0]; [1]]) tr m [p0; p1] /\ finished [p0; p1] /\ race tr /\
  snd p0 = [(rows, cols, ps)] /\ snd p1 = [(rows, cols, repeat (0, 0) (length ps))].
Proof.
  destruct goes_reads as (ev0 & I0 & G0).
  assert (G1 : goes (writes (fresh nd n) (writes final rest)) m0 [] (map (fun lw => (true, fst lw)) (fresh nd n)) (writes final rest) m1) by (apply goes_writes, fresh_there).
  assert (G2 : goes (writes final rest) m1 [] (map (fun lw => (true, fst lw)) final) rest m2) by (apply goes_writes; intros l I; apply sets_there, final_there, I).
  destruct (goes_ready feq rows cols _ m1 fresh_positions) as (ev1 & I1 & _ & G3).
  destruct (rest_run) as (ev2 & G4).
  pose proof (goes_trans _ _ _ _ _ _ G0 _ _ _ _ G1) as A. pose proof (goes_trans _ _ _ _ _ _ G2 _ _ _ _ G4) as C. cbn [app] in A, C.
  apply (goes_seq Done) in A. apply (goes_seq Done) in C. apply (goes_seq Done) in G3. cbn [seqp] in C, G3.
  set (s0 := start (fun _ : Z => UseMask feq) [[0]; [1]] : list (thread T D learnt)).
  pose proof (goes_exec _ _ _ _ _ _ A s0 0 [] eq_refl) as XA.
  pose proof (goes_exec _ _ _ _ _ _ G3 (upd s0 0 (seqp (writes final rest) Done, [] ++ [])) 1 [] eq_refl) as XB.
  pose proof (goes_exec _ _ _ _ _ _ C (upd (upd s0 0 (seqp (writes final rest) Done, [] ++ [])) 1 (Done, [] ++ [(rows, cols, repeat (0, 0) (length ps))])) 0 [] eq_refl) as XC.
  eexists. exists m2, (Done, [(rows, cols, ps)]), (Done, [(rows, cols, repeat (0, 0) (length ps))]).
  split; [exact (exec_trans _ _ _ _ _ (exec_trans _ _ _ _ _ XA _ _ _ XB) _ _ _ XC)|]. split; [intros th [<-|[<-|[]]]; reflexivity|]. split; [|split; reflexivity].
  exists 0%nat, 1%nat, true, false, F_pos. split; [|split; [|split; [discriminate|left; reflexivity]]].
  - apply in_or_app. left. apply in_or_app. left. apply in_map_iff. exists (true, F_pos). split; [reflexivity|]. apply in_or_app. right. apply in_map_iff. exists (F_pos, WI 1). split; [reflexivity|]. apply fresh_in. tauto.
  - apply in_or_app. left. apply in_or_app. right. apply in_map_iff. exists (false, F_pos). split; [reflexivity|exact I1].
Qed.
End M.
