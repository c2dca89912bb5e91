From Coq Require Import ZArith List Bool Lia Permutation ZifyBool.
From Verif Require Import Base RasterModel RasterSpec ListLib ParModel ParSpec ParProofs ParProofs2 ShareModel ShareProofs ShareProofs3 MaskShareModel MaskShareSpec.
Import ListNotations.
Open Scope Z_scope.

Section S.
Context {T D R : Type}.
Implicit Types (p q : ParModel.prog T D R) (m : mem T D).

(** A thread going on alone for a while. *)
Inductive goes : ParModel.prog T D R -> mem T D -> list R -> list (bool * loc) -> ParModel.prog T D R -> mem T D -> Prop :=
| goes_here p m : goes p m [] [] p m
| goes_rd l k w m ad ev q m' : m l = Some w -> goes (k w) m ad ev q m' -> goes (Rd l k) m ad ((false, l) :: ev) q m'
| goes_wr l w w0 p m ad ev q m' : m l = Some w0 -> goes p (set m l w) ad ev q m' -> goes (Wr l w p) m ad ((true, l) :: ev) q m'
| goes_add d p m ad ev q m' : goes p m ad ev q m' -> goes (Add d p) m (d :: ad) ev q m'.
Lemma goes_trans p m ad ev q m1 : goes p m ad ev q m1 -> forall ad' ev' s m2, goes q m1 ad' ev' s m2 -> goes p m (ad ++ ad') (ev ++ ev') s m2.
Proof. induction 1; intros; cbn [app]; [assumption| | |]; econstructor; eauto. Qed.
Lemma goes_run p m ad ev m' : goes p m ad ev Done m' -> run p m = Some (m', ad).
Proof.
  intros G. remember (Done : ParModel.prog T D R) as q eqn:E. induction G; subst; cbn [run].
  - reflexivity.
  - rewrite H. auto.
  - rewrite H. auto.
  - rewrite IHG; reflexivity.
Qed.
Lemma upd_upd {A} (l : list A) : forall t x y, upd (upd l t x) t y = upd l t y.
Proof. induction l as [|a l IH]; intros [|t] x y; cbn; try reflexivity. f_equal. apply IH. Qed.
Lemma upd_nth {A} (l : list A) : forall t x y, nth_error l t = Some x -> nth_error (upd l t y) t = Some y.
Proof. induction l as [|a l IH]; intros [|t] x y H; cbn in *; try discriminate; [reflexivity|eauto]. Qed.
Lemma upd_id {A} (l : list A) : forall t x, nth_error l t = Some x -> upd l t x = l.
Proof. induction l as [|a l IH]; intros [|t] x H; cbn in *; try discriminate; [congruence|]. f_equal. auto. Qed.
Lemma exec_trans m ps tr m1 ps1 : exec m ps tr m1 ps1 -> forall tr' m2 ps2, exec (R := R) m1 ps1 tr' m2 ps2 -> exec m ps (tr ++ tr') m2 ps2.
Proof.
  intros X tr' m2 ps2 Y. induction Y as [|tr' m3 ps3 e m4 ps4 Y IH St]; [rewrite app_nil_r; exact X|]. rewrite app_assoc. econstructor; eassumption.
Qed.
Lemma exec_one m ps e m1 ps1 : step (R := R) m ps e m1 ps1 -> exec m ps e m1 ps1.
Proof. intros St. change e with ([] ++ e). eapply exec_next; [constructor|exact St]. Qed.
Lemma goes_exec p m ad ev q m' : goes p m ad ev q m' -> forall ps t r, nth_error ps t = Some (p, r) ->
  exec m ps (map (fun e => (t, fst e, snd e)) ev) m' (upd ps t (q, r ++ ad)).
Proof.
  induction 1 as [p m|l k w m ad ev q m' E G IH|l w w0 p m ad ev q m' E G IH|d p m ad ev q m' G IH]; intros ps t r N; cbn [map fst snd].
  - rewrite app_nil_r, upd_id by exact N. constructor.
  - change (?a :: ?b) with ([a] ++ b). eapply exec_trans; [apply exec_one; eapply step_rd; [exact N|exact E]|]. rewrite <- (upd_upd ps t (k w, r) (q, r ++ ad)). apply IH. eapply upd_nth, N.
  - change (?a :: ?b) with ([a] ++ b). eapply exec_trans; [apply exec_one; eapply step_wr; [exact N|exact E]|]. rewrite <- (upd_upd ps t (p, r) (q, r ++ ad)). apply IH. eapply upd_nth, N.
  - change (map ?f ev) with ([] ++ map f ev). eapply exec_trans; [apply exec_one; eapply step_add; exact N|]. rewrite <- (upd_upd ps t (p, r ++ [d]) (q, r ++ d :: ad)).
    replace (r ++ d :: ad) with ((r ++ [d]) ++ ad) by (rewrite <- app_assoc; reflexivity). apply IH. eapply upd_nth, N.
Qed.
End S.

Section M.
Context {T D : Type}.
Notation prog := (prog T D learnt).
Implicit Types (p q : prog) (m : mem T D) (ws : list (loc * word T D)).
Variable feq : T -> T -> bool.

Definition sets ws m : mem T D := fold_left (fun m lw => set m (fst lw) (snd lw)) ws m.
Lemma sets_app a b m : sets (a ++ b) m = sets b (sets a m).
Proof. apply fold_left_app. Qed.
Lemma sets_out ws : forall m l, ~ In l (map fst ws) -> sets ws m l = m l.
Proof.
  induction ws as [|[x w] ws IH]; intros m l N; [reflexivity|]. cbn [sets fold_left fst snd]. fold (sets ws (set m x w)). rewrite IH by (intros I; apply N; right; exact I). apply set_other. intros ->. apply N. left. reflexivity.
Qed.
Lemma sets_there ws : forall m l, m l <> None -> sets ws m l <> None.
Proof.
  induction ws as [|[x w] ws IH]; intros m l N; [exact N|]. cbn [sets fold_left fst snd]. apply IH. unfold set. destruct (loc_dec x l); [discriminate|exact N].
Qed.
Lemma sets_in a l w b m : ~ In l (map fst b) -> sets (a ++ (l, w) :: b) m l = Some w.
Proof. intros N. rewrite sets_app. cbn [sets fold_left fst snd]. fold (sets b (set (sets a m) l w)). rewrite sets_out by exact N. apply set_same. Qed.
(** All writes of one element write the same. *)
Lemma sets_same ws : forall m l w, In l (map fst ws) -> (forall x, In (l, x) ws -> x = w) -> sets ws m l = Some w.
Proof.
  induction ws as [|[x v] ws IH]; intros m l w I A; [destruct I|]. cbn [sets fold_left fst snd]. fold (sets ws (set m x v)).
  destruct (in_dec loc_dec l (map fst ws)) as [J|J]; [apply IH; [exact J|intros y Y; apply A; right; exact Y]|].
  rewrite sets_out by exact J. destruct I as [E|I]; [|contradiction]. cbn in E. subst x. rewrite (A v (or_introl eq_refl)). apply set_same.
Qed.
Lemma writes_app a b p : writes (a ++ b) p = writes a (writes b p).
Proof. induction a as [|[l w] a IH]; [reflexivity|]. cbn. f_equal. exact IH. Qed.
Lemma goes_writes ws : forall m p, (forall l, In l (map fst ws) -> m l <> None) -> goes (writes ws p) m [] (map (fun lw => (true, fst lw)) ws) p (sets ws m).
Proof.
  induction ws as [|[l w] ws IH]; intros m p H; [constructor|]. cbn [writes map fst]. destruct (m l) as [w0|] eqn:E; [|exfalso; apply (H l); [left; reflexivity|exact E]].
  eapply goes_wr; [exact E|]. apply IH. intros x X. unfold set. destruct (loc_dec l x); [discriminate|apply H; right; exact X].
Qed.

Definition vcells (value : Z -> Z -> T) (cs : list (Z * Z)) : list (Z * Z * T) := map (fun c => (fst c, snd c, value (fst c) (snd c))) cs.
Lemma goes_valid cols nd value cs : forall seen k m, (forall i j, In (i, j) cs -> m (A_raster, i * cols + j, 0) = Some (WT (value i j))) -> m F_nodata = Some (WT nd) ->
  exists ev, goes (validM feq cols cs seen k) m [] ev (k (seen ++ vcells value (filter (fun c => negb (feq (value (fst c) (snd c)) nd)) cs))) m.
Proof.
  induction cs as [|[i j] cs IH]; intros seen k m H N; cbn [validM filter vcells map]; [rewrite app_nil_r; exists []; constructor|].
  destruct (IH (if feq (value i j) nd then seen else seen ++ [(i, j, value i j)]) k m) as (ev & G); [intros a b I; apply H; right; exact I|exact N|].
  eexists. eapply goes_rd; [apply H; left; reflexivity|]. cbv beta iota. eapply goes_rd; [exact N|]. cbv beta iota. cbn [fst snd].
  destruct (feq (value i j) nd); cbn [negb]; [exact G|]. rewrite <- app_assoc in G. exact G.
Qed.
Lemma goes_pos (ps : list (Z * Z)) : forall k0 seen k m, (forall i a b, nth_error ps i = Some (a, b) -> m (A_pos, k0 + Z.of_nat i, 0) = Some (WI a) /\ m (A_pos, k0 + Z.of_nat i, 1) = Some (WI b)) ->
  exists ev, (forall l, ~ In (true, l) ev) /\ goes (read_posM (map (fun i => k0 + Z.of_nat i) (seq 0 (length ps))) seen k) m [] ev (k (seen ++ ps)) m.
Proof.
  induction ps as [|[a b] ps IH]; intros k0 seen k m H; [rewrite app_nil_r; exists []; split; [intros l []|constructor]|].
  cbn [length seq map read_posM]. rewrite <- seq_shift, map_map. destruct (H O a b eq_refl) as [A B].
  destruct (IH (k0 + 1) (seen ++ [(a, b)]) k m) as (ev & NW & G).
  { intros i x y E. replace (k0 + 1 + Z.of_nat i) with (k0 + Z.of_nat (S i)) by lia. apply (H (S i) x y E). }
  exists ((false, (A_pos, k0 + 0, 0)) :: (false, (A_pos, k0 + 0, 1)) :: ev). split; [intros l [X|[X|X]]; [discriminate X|discriminate X|exact (NW l X)]|].
  eapply goes_rd; [exact A|]. cbv beta iota. eapply goes_rd; [exact B|]. cbv beta iota. rewrite <- app_assoc in G.
  erewrite map_ext; [exact G|]. intros i. cbv beta. lia.
Qed.
Lemma zseq_seq n : zseq (Z.of_nat n) = map (fun i => 0 + Z.of_nat i) (seq 0 n).
Proof. unfold zseq. rewrite Nat2Z.id. apply map_ext. intros. lia. Qed.

(** With positions *)
Lemma goes_ready rows cols ps m : holds_positions m rows cols ps -> exists ev, In (false, F_pos) ev /\ (forall l, ~ In (true, l) ev) /\ goes (UseMask feq) m [(rows, cols, ps)] ev Done m.
Proof.
  intros (HR & HC & HP & HN & HA). destruct (goes_pos ps 0 [] (fun ps => Add (rows, cols, ps) Done) m) as (ev & NW & G).
  { intros i a b E. apply HA, aget_ok; [lia|]. replace (Z.to_nat (0 + Z.of_nat i)) with i by lia. exact E. }
  exists ([(false, F_rows); (false, F_cols); (false, F_pos); (false, F_cells)] ++ ev). split; [right; right; left; reflexivity|]. split; [intros l [X|[X|[X|[X|X]]]]; try discriminate X; exact (NW l X)|].
  unfold UseMask, PositionsM, rdI. eapply goes_rd; [exact HR|]. cbv beta iota. eapply goes_rd; [exact HC|]. cbv beta iota. eapply goes_rd; [exact HP|]. cbv beta iota. cbn [Z.eqb negb]. eapply goes_rd; [exact HN|]. cbv beta iota.
  rewrite zseq_seq. replace ev with (ev ++ []) by apply app_nil_r. change [(rows, cols, ps)] with ([] ++ [(rows, cols, ps)]). eapply goes_trans; [exact G|]. apply goes_add. constructor.
Qed.
End M.
