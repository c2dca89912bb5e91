From Coq Require Import ZArith List Bool Lia Permutation ZifyBool.
From Verif Require Import Base RasterModel RasterSpec ListLib RasterProofs ParModel ParSpec ParProofs ParProofs2 ShareModel ShareSpec ShareProofs ShareProofs2 ShareProofs3.
Import ListNotations.
Open Scope Z_scope.

Section S.
Context {T D : Type}.
Notation prog := (prog T D (answer T D)).
Implicit Types (r : raster T) (m : mem T D) (p q : prog).
Tactic Notation "is" ident(c) := eapply reach_is; [constructor|].

(** Reaching without guards. *)
Lemma reach_plain r m p q : holds m r -> reach r p q -> run p m = run q m /\ incl (trace q m) (trace p m).
Proof.
  intros H. induction 1 as [p|l k z q P R IH]; [split; [reflexivity|apply incl_refl]|]. cbn [rdI run trace]. rewrite (holds_pinned m r l z H P). split; [apply IH|apply incl_tl, IH].
Qed.
Lemma pre r row col lyr : shape r -> inside r row col -> layer_ok r lyr -> forall (kk : bool -> prog) q, reach r (kk false) q -> reach r (orP (orP (notP ValidateP) (notP (RowColP row col))) (notP (LayerP lyr)) kk) q.
Proof.
  intros S I L kk q H. unfold orP, notP. apply r_validate. rewrite (storage_valid _ _ (shape_storage r S)). apply r_rowcol. rewrite (proj2 (vrc_true r row col) I). apply r_layer. rewrite (proj2 (vl_true r lyr) L). exact H.
Qed.
Lemma set_reach r row col v lyr i (k : prog) : shape r -> inside r row col -> layer_ok r lyr -> GetPosition r row col = Ok i -> 0 <= i -> reach r (SetValueP row col v lyr k) (Wr (cell (r_is2d r) i lyr) (WT v) k).
Proof.
  intros S I L E B. unfold SetValueP. apply pre; auto. cbv beta iota. eapply r_position; [exact E|]. cbv beta. destruct (i =? -1) eqn:N; [lia|]. is p_2d. constructor.
Qed.
Lemma get_reach r row col lyr i (k : T -> prog) : shape r -> inside r row col -> layer_ok r lyr -> GetPosition r row col = Ok i -> 0 <= i -> reach r (GetValueP row col lyr k) (rdT (cell (r_is2d r) i lyr) k).
Proof.
  intros S I L E B. unfold GetValueP. apply pre; auto. cbv beta iota.
  assert (POS : forall (kk : bool -> prog) q, reach r (kk (r_calc r && (negb (isnull (r_pos r)) || negb (isnull (r_posidx r))))) q -> reach r (andP (isP F_calc) (orP (isP F_pos) (isP F_posidx)) kk) q).
  { intros kk q H. unfold andP, orP. is p_calc. destruct (r_calc r); cbn [andb] in H; [|exact H]. is p_pos. destruct (isnull (r_pos r)); cbn [negb orb] in H |- *; [is p_posidx; exact H|exact H]. }
  apply POS. destruct (r_calc r && (negb (isnull (r_pos r)) || negb (isnull (r_posidx r)))) eqn:CP.
  - eapply r_position; [exact E|]. cbv beta. destruct (i <? 0) eqn:N; [lia|]. unfold GetValueByIndexP, orP, notP. apply r_validate. rewrite (storage_valid _ _ (shape_storage r S)). apply r_index.
    assert (VI : ValidateIndex r i = true). { apply vi_true. destruct (shape_position r row col S I) as (i' & E' & [Q|[Q _]]); assert (i' = i) by congruence; subst i'; [lia|exact Q]. }
    rewrite VI. apply r_layer. rewrite (proj2 (vl_true r lyr) L). cbn [negb]. is p_2d. constructor.
  - assert (F : full_grid r). { destruct S as [F|(ix & C)]; [exact F|]. destruct C as (_&_&_&_&_&_&CA&PI&PO&_). rewrite CA, PO in CP. discriminate. }
    rewrite (GetPosition_full r row col F I) in E. injection E as <-. is p_2d. eapply reach_rd; [apply p_cols|]. constructor.
Qed.
Lemma stored_position r row col : shape r -> stored r row col -> exists i, GetPosition r row col = Ok i /\ 0 <= i < r_ncells r /\ cell_of r i = (row, col).
Proof.
  intros S [I ST]. destruct (shape_position r row col S I) as (i & E & [->|Q]); [|exists i; auto]. exfalso. destruct ST as [F|(ix & C & J)].
  - rewrite (GetPosition_full r row col F I) in E. destruct I. assert (row * r_cols r + col = -1) by congruence. nia.
  - destruct (GetPosition_compact r ix row col C I) as [(i & E' & B & _)|[_ N]]; [assert (i = -1) by congruence; lia|contradiction].
Qed.

(** Two threads at the same cell, the first one setting it. *)
Lemma race_set r m0 row col lyr v (c : call T) : shape r -> holds m0 r -> stored r row col -> layer_ok r lyr ->
  (c = CValue row col lyr \/ exists w, c = CSet row col w lyr) ->
  exists tr m ps, exec m0 (start (fun i => clientP (CCall (if i =? 0 then CSet row col v lyr else c) (fun _ : answer T D => CEnd))) [[0]; [1]]) tr m ps /\ finished ps /\ race tr.
Proof.
  intros S H ST L C. destruct (stored_position r row col S ST) as (i & E & B & CO). pose proof (proj1 ST) as I. set (l := cell (r_is2d r) i lyr).
  pose proof (set_reach r row col v lyr i (Add ADone Done) S I L E (proj1 B)) as R. destruct (reach_plain r m0 _ _ H R) as [RU TR].
  destruct (write_ok r (r_ncells r) i lyr v (shape_storage r S) B L) as (r1 & W & F & _).
  destruct (write_holds m0 r i lyr v r1 S H B L W) as (NN & H1 & S1 & PI & E2 & EN & EC). fold l in NN, H1, RU, TR. set (m1 := set m0 l (WT v)) in *.
  assert (I1 : inside r1 row col) by (apply (inside_frame _ _ _ _ F), I). assert (L1 : layer_ok r1 lyr) by (apply (layer_frame _ _ _ F), L).
  assert (E1 : GetPosition r1 row col = Ok i). { pose proof (shape_cell r1 i S1 ltac:(lia)) as [_ G]. rewrite EC, CO in G. exact G. }
  assert (ML : exists x, m0 l = Some x) by (destruct (m0 l); [eauto|contradiction]). destruct ML as (x0 & ML).
  assert (SECOND : exists m2 rb b, run (clientP (CCall c (fun _ : answer T D => CEnd))) m1 = Some (m2, rb) /\ In (b, l) (trace (clientP (CCall c (fun _ : answer T D => CEnd))) m1)).
  { assert (M1 : m1 l = Some (WT v)) by apply set_same. destruct C as [->|(w & ->)]; cbn [clientP callP].
    - pose proof (get_reach r1 row col lyr i (fun x => Add (AVal x) Done) S1 I1 L1 E1 (proj1 B)) as R1. rewrite E2 in R1. fold l in R1. destruct (reach_plain r1 m1 _ _ H1 R1) as [RU1 TR1]. rewrite RU1. cbn [rdT run]. rewrite M1. cbn [run].
      eexists. eexists. exists false. split; [reflexivity|]. apply TR1. left. reflexivity.
    - pose proof (set_reach r1 row col w lyr i (Add ADone Done) S1 I1 L1 E1 (proj1 B)) as R1. rewrite E2 in R1. fold l in R1. destruct (reach_plain r1 m1 _ _ H1 R1) as [RU1 TR1]. rewrite RU1. cbn [run]. rewrite M1.
      eexists. eexists. exists true. split; [reflexivity|]. apply TR1. left. reflexivity. }
  destruct SECOND as (m2 & rb & b & EB & IB). eapply (two_race _ m0 m1 m2 [ADone] rb l true b); [| | | |left; reflexivity].
  - change (run (SetValueP row col v lyr (Add ADone Done)) m0 = Some (m1, [ADone])). rewrite RU. cbn [run]. rewrite ML. reflexivity.
  - exact EB.
  - change (In (true, l) (trace (SetValueP row col v lyr (Add ADone Done)) m0)). apply TR. left. reflexivity.
  - exact IB.
Qed.

(** *** Statistics *)
Variable is_none : D -> bool.
Variable six : list T -> Z -> D.
Notation stat s := (GetStatisticsP is_none six s (fun d => Add (AStat d) Done)).
Lemma stats_par n s m0 d : m0 F_stats = Some (WI 1) -> m0 (A_stats, s, 0) = Some (WD d) -> parallel_for n (fun _ => stat s) m0 m0 (fun _ => [AStat d]).
Proof.
  intros HF HS. apply (under_par n _ (fun _ => guard (Kin m0) (stat s))); [intros; apply guard_under|]. apply no_cell.
  - intros i _. unfold GetStatisticsP. cbn [rdD guard fits]. split; [reflexivity|]. intros w. destruct (Kin m0 (A_stats, s, 0) w); [|exact I]. destruct w as [z|x|x]; try exact I.
    assert (END : forall w, fits (fun _ => true) (fun _ => false) (if Kin m0 (A_stats, s, 0) w then guard (Kin m0) (match w with WD x => (Add (AStat x) Done : prog) | _ => Bad end) else Bad)) by (intros w; destruct (Kin m0 (A_stats, s, 0) w); [destruct w; exact I|exact I]).
    assert (FL : forall (k : bool -> prog), fits (fun _ => true) (fun _ => false) (guard (Kin m0) (k true)) -> fits (fun _ => true) (fun _ => false) (guard (Kin m0) (isP F_stats k))).
    { intros k H. unfold isP. cbn [rdI guard fits]. split; [reflexivity|]. intros w'. unfold Kin. rewrite HF. destruct w' as [z|y|y]; try exact I. destruct (Z.eqb_spec z 1) as [->|NE]; [exact H|exact I]. }
    unfold orP, notP. destruct (is_none x).
    + unfold CalculateP. unfold isP. cbn [rdI seqp guard fits]. split; [reflexivity|]. intros w'. unfold Kin at 1. rewrite HF. destruct w' as [z|y|y]; try exact I. destruct (Z.eqb_spec z 1) as [->|NE]; [|exact I]. cbn [Z.eqb negb seqp rdD guard fits]. split; [reflexivity|exact END].
    + apply FL. cbn [negb seqp rdD guard fits]. split; [reflexivity|exact END].
  - intros i _. exists m0. unfold GetStatisticsP. cbn [rdD guard run]. rewrite HS. unfold Kin at 1. cbn [guard run]. unfold orP, notP. destruct (is_none d).
    + unfold CalculateP, isP. cbn [rdI seqp guard run]. rewrite HF. unfold Kin at 1. rewrite HF. cbn [Z.eqb Pos.eqb negb seqp rdD guard run]. rewrite HS. unfold Kin at 1. reflexivity.
    + unfold isP. cbn [rdI seqp guard run]. rewrite HF. unfold Kin at 1. rewrite HF. cbn [Z.eqb Pos.eqb negb seqp rdD guard run]. rewrite HS. unfold Kin at 1. reflexivity.
Qed.

Lemma all_cells_run ix : forall seen (k : list T -> prog) q m, (forall i, In i ix -> exists x, m (A_raster, i, 0) = Some (WT x)) ->
  exists xs, run (seqp (all_cells ix seen k) q) m = run (seqp (k xs) q) m /\ incl (trace (seqp (k xs) q) m) (trace (seqp (all_cells ix seen k) q) m).
Proof.
  induction ix as [|i ix IH]; intros seen k q m H; cbn [all_cells]; [exists seen; split; [reflexivity|apply incl_refl]|]. destruct (H i (or_introl eq_refl)) as (x & E).
  destruct (IH (seen ++ [x]) k q m) as (xs & A & B); [intros j J; apply H; right; exact J|]. exists xs. cbn [rdT seqp run trace]. rewrite E. split; [exact A|apply incl_tl, B].
Qed.
Lemma seqp_assoc p : forall q s m, run (seqp (seqp p q) s) m = run (seqp p (seqp q s)) m /\ trace (seqp (seqp p q) s) m = trace (seqp p (seqp q s)) m.
Proof.
  induction p as [| |l k IH|l w p IH|d p IH]; intros q s m; cbn [seqp run trace]; auto.
  - destruct (m l); [split; [apply IH|f_equal; apply IH]|auto].
  - split; [destruct (m l); [apply IH|reflexivity]|f_equal; apply IH].
  - destruct (IH q s m) as [-> ->]. auto.
Qed.
Lemma stats_race n s m0 f g : 0 <= s < 6 -> m0 F_stats = Some (WI 0) -> m0 F_cells = Some (WI n) -> holds1 m0 A_raster n (fun i => WT (f i)) -> holds1 m0 A_stats 6 (fun j => WD (g j)) ->
  exists tr m ps, exec m0 (start (fun _ => stat s) [[0]; [1]]) tr m ps /\ finished ps /\ race tr.
Proof.
  intros B HF HC HR HS. unfold holds1 in *.
  assert (BODY : forall m', (exists d, m' (A_stats, s, 0) = Some (WD d)) -> (forall j, 0 <= j < 6 -> exists d, m' (A_stats, j, 0) = Some (WD d)) -> (m' F_stats = Some (WI 0) \/ m' F_stats = Some (WI 1)) -> m' F_cells = Some (WI n) -> (forall i, 0 <= i < n -> exists x, m' (A_raster, i, 0) = Some (WT x)) ->
     exists m2 ra, run (stat s) m' = Some (m2, ra) /\ In (false, (A_stats, s, 0)) (trace (stat s) m') /\ (m' F_stats = Some (WI 0) -> In (true, (A_stats, s, 0)) (trace (stat s) m') /\ m2 F_stats = Some (WI 1) /\ (forall j, 0 <= j < 6 -> exists d, m2 (A_stats, j, 0) = Some (WD d)) /\ m2 F_cells = Some (WI n) /\ (forall i, 0 <= i < n -> exists x, m2 (A_raster, i, 0) = Some (WT x)))).
  { intros m' (d & ES) EJ EF EC ER.
    (* calculating *)
    set (rest := rdD (A_stats, s, 0) (fun x => Add (AStat x) Done) : prog).
    assert (CALC : m' F_stats = Some (WI 0) -> exists m2 ra, run (seqp (CalculateP six) rest) m' = Some (m2, ra) /\ In (true, (A_stats, s, 0)) (trace (seqp (CalculateP six) rest) m') /\ m2 F_stats = Some (WI 1) /\ (forall j, 0 <= j < 6 -> exists d, m2 (A_stats, j, 0) = Some (WD d)) /\ m2 F_cells = Some (WI n) /\ (forall i, 0 <= i < n -> exists x, m2 (A_raster, i, 0) = Some (WT x))).
    { intros Z. unfold CalculateP, isP. cbn [rdI seqp run trace]. rewrite Z. cbn [Z.eqb negb]. cbn [rdI seqp run trace]. rewrite EC.
      destruct (all_cells_run (zseq n) [] (fun xs => seqp (forl (zseq 6) (fun j => Wr (A_stats, j, 0) (WD (six xs j)) Done)) (Wr F_stats (WI 1) Done)) rest m') as (xs & RA & TA); [intros i I; apply ER, zseq_In, I|].
      rewrite RA. change (zseq 6) with [0; 1; 2; 3; 4; 5] in *. cbn [forl seqp] in *. cbn [run] in *.
      assert (N : forall j, 0 <= j < 6 -> m' (A_stats, j, 0) <> None) by (intros j J; destruct (EJ j J) as (x & ->); discriminate).
      assert (OT : forall (mm : mem T D) j w j', j <> j' -> set mm (A_stats, j, 0) w (A_stats, j', 0) = mm (A_stats, j', 0)) by (intros; apply set_other; congruence).
      do 6 (rewrite ?OT by discriminate; match goal with |- context [match m' (A_stats, ?j, 0) with Some _ => _ | None => _ end] => destruct (EJ j ltac:(lia)) as (? & ->) end).
      set (mw := set (set (set (set (set (set m' (A_stats, 0, 0) (WD (six xs 0))) (A_stats, 1, 0) (WD (six xs 1))) (A_stats, 2, 0) (WD (six xs 2))) (A_stats, 3, 0) (WD (six xs 3))) (A_stats, 4, 0) (WD (six xs 4))) (A_stats, 5, 0) (WD (six xs 5))).
      assert (MS : forall j, 0 <= j < 6 -> mw (A_stats, j, 0) = Some (WD (six xs j))).
      { intros j J. assert (C6 : j = 0 \/ j = 1 \/ j = 2 \/ j = 3 \/ j = 4 \/ j = 5) by lia. unfold mw. destruct C6 as [->|[->|[->|[->|[->| ->]]]]]; rewrite ?OT by discriminate; apply set_same. }
      assert (MO : forall x, fst (fst x) <> A_stats -> mw x = m' x) by (intros y X; unfold mw; rewrite !set_other; try reflexivity; intros <-; apply X; reflexivity).
      rewrite (MO F_stats) by discriminate. rewrite Z. unfold rest. cbn [rdD run]. rewrite set_other by discriminate. rewrite (MS s B). cbn [run]. eexists. eexists. split; [reflexivity|]. split.
      - right. right. apply TA. clear - B. assert (C6 : s = 0 \/ s = 1 \/ s = 2 \/ s = 3 \/ s = 4 \/ s = 5) by lia. destruct C6 as [->|[->|[->|[->|[->| ->]]]]]; cbn [trace]; auto 10 using in_eq, in_cons.
      - split; [apply set_same|]. split; [intros j J; exists (six xs j); rewrite set_other by discriminate; apply MS, J|]. split; [rewrite set_other by discriminate; rewrite MO by discriminate; exact EC|].
        intros i I. destruct (ER i I) as (y & X). exists y. rewrite set_other by discriminate. rewrite MO by discriminate. exact X. }
    unfold GetStatisticsP. cbn [rdD run trace]. rewrite ES. cbn [run trace]. unfold orP, notP, isP. fold rest. destruct (is_none d).
    - destruct EF as [Z|Z].
      + destruct (CALC Z) as (m2 & ra & A1 & A2 & A3). exists m2, ra. split; [exact A1|]. split; [left; reflexivity|]. intros _. split; [right; exact A2|exact A3].
      + unfold CalculateP, isP. cbn [rdI seqp run trace]. rewrite Z. cbn [Z.eqb Pos.eqb negb seqp]. unfold rest. cbn [rdD run]. rewrite ES. eexists. eexists. split; [reflexivity|]. split; [left; reflexivity|]. rewrite Z. discriminate.
    - cbn [rdI run trace]. destruct EF as [Z|Z]; rewrite Z; cbn [Z.eqb Pos.eqb negb].
      + destruct (CALC Z) as (m2 & ra & A1 & A2 & A3). exists m2, ra. split; [exact A1|]. split; [left; reflexivity|]. intros _. split; [right; right; exact A2|exact A3].
      + cbn [seqp]. unfold rest. cbn [rdD run]. rewrite ES. eexists. eexists. split; [reflexivity|]. split; [left; reflexivity|]. discriminate. }
  destruct (BODY m0) as (m1 & ra & R0 & _ & N0); [exists (g s); apply HS, B|intros j J; exists (g j); apply HS, J|left; exact HF|exact HC|intros i I; exists (f i); apply HR, I|].
  destruct (N0 HF) as (W0 & F1 & S1 & C1 & X1).
  destruct (BODY m1) as (m2 & rb & R1 & T1 & _); [apply S1, B|exact S1|right; exact F1|exact C1|exact X1|].
  eapply (two_race _ m0 m1 m2 ra rb (A_stats, s, 0) true false); try eassumption. left. reflexivity.
Qed.

(** *** One call before the threads *)
Lemma fits_any p : fits (fun _ => true) (fun _ => true) p.
Proof. induction p; cbn [fits]; auto. Qed.
Lemma par_one (body : Z -> prog) m0 m1 added : run (body 0) m0 = Some (m1, added) -> parallel_for 1 body m0 m1 (fun _ => added).
Proof.
  intros E. apply (par_safe 1 body m0 m1 (fun _ => added) (fun _ _ => true) (fun _ _ => true)).
  - intros i _. apply fits_any.
  - intros i j l A B N. lia.
  - intros i A. assert (i = 0) by lia. subst i. exists m1. auto.
  - intros l H. discriminate (H 0 ltac:(lia)).
Qed.
Lemma all_cells_map f ix : forall seen (k : list T -> prog) q m, (forall i, In i ix -> m (A_raster, i, 0) = Some (WT (f i))) ->
  run (seqp (all_cells ix seen k) q) m = run (seqp (k (seen ++ map f ix)) q) m.
Proof.
  induction ix as [|i ix IH]; intros seen k q m H; cbn [all_cells map]; [rewrite app_nil_r; reflexivity|].
  cbn [rdT seqp run]. rewrite (H i (or_introl eq_refl)). rewrite IH by (intros j J; apply H; right; exact J). rewrite <- app_assoc. reflexivity.
Qed.
Lemma stats_first n s m0 f g : 0 <= s < 6 -> m0 F_stats = Some (WI 0) -> m0 F_cells = Some (WI n) -> holds1 m0 A_raster n (fun i => WT (f i)) -> holds1 m0 A_stats 6 (fun j => WD (g j)) ->
  exists m1, parallel_for 1 (fun _ => stat s) m0 m1 (fun _ => [AStat (six (map f (zseq n)) s)]) /\
    m1 F_stats = Some (WI 1) /\ holds1 m1 A_stats 6 (fun j => WD (six (map f (zseq n)) j)) /\
    (forall l, fst (fst l) <> A_stats -> l <> F_stats -> m1 l = m0 l).
Proof.
  intros B HF HC HR HS. unfold holds1 in *. set (xs := map f (zseq n)).
  set (rest := rdD (A_stats, s, 0) (fun x => Add (AStat x) Done) : prog).
  assert (CALC : exists m2, run (seqp (CalculateP six) rest) m0 = Some (m2, [AStat (six xs s)]) /\ m2 F_stats = Some (WI 1) /\ (forall j, 0 <= j < 6 -> m2 (A_stats, j, 0) = Some (WD (six xs j))) /\ (forall l, fst (fst l) <> A_stats -> l <> F_stats -> m2 l = m0 l)).
  { unfold CalculateP, isP. cbn [rdI seqp run]. rewrite HF. cbn [Z.eqb negb]. cbn [rdI seqp run]. rewrite HC.
    rewrite (all_cells_map f (zseq n) []) by (intros i I; apply HR, zseq_In, I). cbn [app]. fold xs.
    change (zseq 6) with [0; 1; 2; 3; 4; 5]. cbn [forl seqp run].
    assert (OT : forall (mm : mem T D) j w j', j <> j' -> set mm (A_stats, j, 0) w (A_stats, j', 0) = mm (A_stats, j', 0)) by (intros; apply set_other; congruence).
    do 6 (rewrite ?OT by discriminate; match goal with |- context [match m0 (A_stats, ?j, 0) with Some _ => _ | None => _ end] => rewrite (HS j) by lia end).
    set (mw := set (set (set (set (set (set m0 (A_stats, 0, 0) (WD (six xs 0))) (A_stats, 1, 0) (WD (six xs 1))) (A_stats, 2, 0) (WD (six xs 2))) (A_stats, 3, 0) (WD (six xs 3))) (A_stats, 4, 0) (WD (six xs 4))) (A_stats, 5, 0) (WD (six xs 5))).
    assert (MS : forall j, 0 <= j < 6 -> mw (A_stats, j, 0) = Some (WD (six xs j))).
    { intros j J. assert (C6 : j = 0 \/ j = 1 \/ j = 2 \/ j = 3 \/ j = 4 \/ j = 5) by lia. unfold mw. destruct C6 as [->|[->|[->|[->|[->| ->]]]]]; rewrite ?OT by discriminate; apply set_same. }
    assert (MO : forall x, fst (fst x) <> A_stats -> mw x = m0 x) by (intros y X; unfold mw; rewrite !set_other; try reflexivity; intros <-; apply X; reflexivity).
    rewrite (MO F_stats) by discriminate. rewrite HF. unfold rest. cbn [rdD run]. rewrite set_other by discriminate. rewrite (MS s B). cbn [run]. eexists. split; [reflexivity|].
    split; [apply set_same|]. split; [intros j J; rewrite set_other by discriminate; apply MS, J|]. intros l A C. rewrite set_other by congruence. apply MO, A. }
  destruct CALC as (m2 & E & P). exists m2. split; [|exact P]. apply par_one. unfold GetStatisticsP. cbn [rdD run]. rewrite (HS s B). unfold orP, notP, isP. fold rest. destruct (is_none (g s)); [exact E|].
  cbn [rdI run]. rewrite HF. cbn [Z.eqb negb]. exact E.
Qed.
End S.
