From Coq Require Import ZArith List Bool Lia Permutation ZifyBool.
From Verif Require Import Base RasterModel ListLib ParModel ParSpec ParProofs.
Import ListNotations.
Open Scope Z_scope.

(** A program that does less: it stops with [Bad] in places. *)
Section Under.
Context {T D R : Type}.
Implicit Types (p q : prog T D R) (m : mem T D).
Fixpoint under p q : Prop :=
  q = Bad \/
  match p, q with
  | Done, Done => True
  | Rd l k, Rd l' k' => l = l' /\ forall w, under (k w) (k' w)
  | Wr l w p, Wr l' w' q => l = l' /\ w = w' /\ under p q
  | Add d p, Add d' q => d = d' /\ under p q
  | _, _ => False
  end.
Lemma under_bad p : under p Bad.
Proof. destruct p; left; reflexivity. Qed.
Lemma under_seq p : forall q p' q', under p q -> under p' q' -> under (seqp p p') (seqp q q').
Proof.
  induction p as [| |l k IH|l w p IH|d p IH]; intros q p' q' U V; cbn [under] in U; destruct U as [->|U]; try (cbn [seqp]; apply under_bad); destruct q as [| |l' k'|l' w' q|d' q]; try contradiction; cbn [seqp].
  - exact V.
  - cbn [under]. right. destruct U as [-> U]. split; [reflexivity|]. intros w. apply IH; auto.
  - cbn [under]. right. destruct U as (-> & -> & U). auto.
  - cbn [under]. right. destruct U as (-> & U). auto.
Qed.
Lemma under_forl c (f g : Z -> prog T D R) : (forall i, In i c -> under (f i) (g i)) -> under (forl c f) (forl c g).
Proof. induction c as [|i c IH]; intros H; cbn [forl]; [right; exact I|]. apply under_seq; [apply H; left; reflexivity|apply IH; intros j J; apply H; right; exact J]. Qed.

Definition pair (a b : thread T D R) : Prop := under (fst a) (fst b) /\ snd a = snd b.
Lemma f2_nth {A B} (P : A -> B -> Prop) l l' : Forall2 P l l' -> forall t a, nth_error l t = Some a -> exists b, nth_error l' t = Some b /\ P a b.
Proof. induction 1 as [|x y l l' H F IH]; intros t a E; [destruct t; discriminate|]. destruct t as [|t]; cbn [nth_error] in *; [injection E as <-; eauto|apply IH, E]. Qed.
Lemma f2_nth' {A B} (P : A -> B -> Prop) l l' : Forall2 P l l' -> forall t b, nth_error l' t = Some b -> exists a, nth_error l t = Some a /\ P a b.
Proof. induction 1 as [|x y l l' H F IH]; intros t a E; [destruct t; discriminate|]. destruct t as [|t]; cbn [nth_error] in *; [injection E as <-; eauto|apply IH, E]. Qed.
Lemma f2_upd {A B} (P : A -> B -> Prop) l l' t a b : Forall2 P l l' -> P a b -> Forall2 P (upd l t a) (upd l' t b).
Proof. intros F Q. revert t. induction F as [|x y l l' H F IH]; intros t; [destruct t; constructor|]. destruct t as [|t]; cbn [upd]; constructor; auto. Qed.

Theorem under_par n (body body' : Z -> prog T D R) m0 m1 added : (forall i, 0 <= i < n -> under (body i) (body' i)) ->
  parallel_for n body' m0 m1 added -> parallel_for n body m0 m1 added.
Proof.
  intros U H chunks tr m ps P X.
  assert (SIM : exists ps', exec m0 (start body' chunks) tr m ps' /\ Forall2 pair ps ps').
  { clear -U H P X. induction X as [|tr m2 ps2 e m3 ps3 X IH S].
    - exists (start body' chunks). split; [constructor|]. unfold start.
      assert (G : forall cs, (forall c, In c cs -> forall i, In i c -> 0 <= i < n) -> Forall2 pair (map (fun c => (forl c body, [])) cs) (map (fun c => (forl c body', [])) cs)).
      { induction cs as [|c cs IH]; intros B; cbn [map]; constructor.
        - split; [|reflexivity]. cbn [fst]. apply under_forl. intros i I. apply U, (B c); [left; reflexivity|exact I].
        - apply IH. intros d Dd. apply B. right. exact Dd. }
      apply G. intros c C i I. apply zseq_In. eapply Permutation_in; [exact P|]. apply in_concat. eauto.
    - destruct IH as (qs & EX & F). destruct S as [t l k r w E M|t l w p r w0 E M|t d p r E]; destruct (f2_nth _ _ _ F _ _ E) as ([q r'] & E' & [Q RR]); cbn [fst snd] in Q, RR; subst r';
        (assert (NB : q <> Bad) by (intros ->; destruct (H chunks tr m2 qs P EX) as (_ & NS & _); apply (NS _ (nth_error_In _ _ E')); exact I));
        cbn [under] in Q; (destruct Q as [Q|Q]; [contradiction|]); destruct q as [| |l' k'|l' w' q|d' q]; try contradiction.
      + destruct Q as [<- Q]. exists (upd qs t (k' w, r)). split; [eapply exec_next; [exact EX|eapply step_rd; eauto]|]. apply f2_upd; [exact F|]. split; [apply Q|reflexivity].
      + destruct Q as (<- & <- & Q). exists (upd qs t (q, r)). split; [eapply exec_next; [exact EX|eapply step_wr; eauto]|]. apply f2_upd; [exact F|]. split; [apply Q|reflexivity].
      + destruct Q as (<- & Q). exists (upd qs t (q, r ++ [d])). split; [eapply exec_next; [exact EX|eapply step_add; eauto]|]. apply f2_upd; [exact F|]. split; [apply Q|reflexivity]. }
  destruct SIM as (ps' & X' & F). destruct (H chunks tr m ps' P X') as (NR & NS & FIN & CAN). split; [exact NR|]. split; [|split].
  - intros [p r] I S. apply In_nth_error in I. destruct I as (t & E). destruct (f2_nth _ _ _ F _ _ E) as ([q r'] & E' & [Q RR]). cbn [fst snd] in *.
    apply (NS _ (nth_error_In _ _ E')). unfold stuck in *. cbn [fst] in *. destruct p as [| |l k|l w p|d p]; cbn [under] in Q; (destruct Q as [->|Q]; [exact I|]); destruct q as [| |l' k'|l' w' q|d' q]; try contradiction.
    + destruct Q as [<- _]. exact S.
    + destruct Q as [<- _]. exact S.
  - intros FI. assert (FI' : finished ps').
    { intros [q r'] I. apply In_nth_error in I. destruct I as (t & E'). destruct (f2_nth' _ _ _ F _ _ E') as ([p r] & E & [Q _]). pose proof (FI _ (nth_error_In _ _ E)) as Z. cbn [fst] in *. subst p.
      cbn [under] in Q. destruct Q as [->|Q]; [exfalso; apply (NS _ (nth_error_In _ _ E')); exact I|]. destruct q; try contradiction. reflexivity. }
    destruct (FIN FI') as (A & B). split; [exact A|]. rewrite <- B. clear -F. induction F as [|a b l l' [_ Q] F IH]; [reflexivity|]. cbn [map]. rewrite Q, IH. reflexivity.
  - destruct CAN as (tr' & m' & qs & EX & FI). 
    assert (CONV : exists ps'', exec m ps tr' m' ps'' /\ Forall2 pair ps'' qs).
    { assert (TR : forall (ma : mem T D) (pa : list (thread T D R)) tr1 mb pb, exec ma pa tr1 mb pb -> forall tr2 mc pc, exec mb pb tr2 mc pc -> exec ma pa (tr1 ++ tr2) mc pc).
      { intros ma pa tr1 mb pb E1 tr2 mc pc E2. induction E2; [rewrite app_nil_r; exact E1|]. rewrite app_assoc. eapply exec_next; eauto. }
      clear FI. induction EX as [|tr2 m2 qs2 e m3 qs3 EX IH S]; [exists ps; split; [constructor|exact F]|]. destruct IH as (pa & EA & FA).
      destruct S as [t l k r w E M|t l w p r w0 E M|t d p r E]; destruct (f2_nth' _ _ _ FA _ _ E) as ([q r'] & E' & [Q RR]); cbn [fst snd] in Q, RR; subst r'; destruct q as [| |l' k'|l' w' q|d' q]; cbn [under] in Q; (destruct Q as [Q|Q]; [discriminate|]); try contradiction.
      - destruct Q as [-> Q]. exists (upd pa t (k' w, r)). split; [eapply exec_next; [exact EA|eapply step_rd; eauto]|]. apply f2_upd; [exact FA|]. split; [apply Q|reflexivity].
      - destruct Q as (-> & -> & Q). exists (upd pa t (q, r)). split; [eapply exec_next; [exact EA|eapply step_wr; eauto]|]. apply f2_upd; [exact FA|]. split; [apply Q|reflexivity].
      - destruct Q as (-> & Q). exists (upd pa t (q, r ++ [d])). split; [eapply exec_next; [exact EA|eapply step_add; eauto]|]. apply f2_upd; [exact FA|]. split; [apply Q|reflexivity]. }
    destruct CONV as (pa & EA & FA). exists tr', m', pa. split; [exact EA|]. intros [p r] I. apply In_nth_error in I. destruct I as (t & E). destruct (f2_nth _ _ _ FA _ _ E) as ([q r'] & E' & [Q _]).
    pose proof (FI _ (nth_error_In _ _ E')) as Z. cbn [fst] in *. subst q. destruct p; cbn [under] in Q; (destruct Q as [Q|Q]; [discriminate|]); try contradiction. reflexivity.
Qed.

(** Reads that give something else than [K] allows lead to [Bad]. *)
Fixpoint guard (K : loc -> word T D -> bool) p : prog T D R :=
  match p with
  | Done => Done
  | Bad => Bad
  | Rd l k => Rd l (fun w => if K l w then guard K (k w) else Bad)
  | Wr l w p => Wr l w (guard K p)
  | Add d p => Add d (guard K p)
  end.
Lemma guard_under K p : under p (guard K p).
Proof.
  induction p as [| |l k IH|l w p IH|d p IH]; cbn [guard under]; auto. right. split; [reflexivity|]. intros w. destruct (K l w); [apply IH|apply under_bad].
Qed.

(** The accesses of a program of its own, and the execution that makes them. *)
Fixpoint trace p m : list (bool * loc) :=
  match p with
  | Rd l k => (false, l) :: match m l with Some w => trace (k w) m | None => [] end
  | Wr l w p => (true, l) :: trace p (set m l w)
  | Add _ p => trace p m
  | _ => []
  end.
Lemma run_exec p : forall m m' rs (ps : list (thread T D R)) t r, run p m = Some (m', rs) -> nth_error ps t = Some (p, r) ->
  exists ps', exec m ps (map (fun e => (t, fst e, snd e)) (trace p m)) m' ps' /\ nth_error ps' t = Some (Done, r ++ rs) /\ length ps' = length ps /\ forall u, u <> t -> nth_error ps' u = nth_error ps u.
Proof.
  assert (TR : forall (ma : mem T D) (pa : list (thread T D R)) e mb pb, step ma pa e mb pb -> forall tr2 mc pc, exec mb pb tr2 mc pc -> exec ma pa (e ++ tr2) mc pc).
  { intros ma pa e mb pb S tr2 mc pc E2. induction E2; [rewrite app_nil_r; apply (exec_next _ _ _ ma pa [] ma pa e mb pb); [constructor|exact S]|]. rewrite app_assoc. eapply exec_next; eauto. }
  assert (UT : forall (pa : list (thread T D R)) t v w, nth_error pa t = Some v -> nth_error (upd pa t w) t = Some w).
  { intros pa t v w E. rewrite upd_nth, Nat.eqb_refl. destruct (Nat.ltb_spec t (length pa)); [reflexivity|]. apply nth_error_None in H. congruence. }
  assert (UO : forall (pa : list (thread T D R)) t w u, u <> t -> nth_error (upd pa t w) u = nth_error pa u).
  { intros pa t w u NE. rewrite upd_nth. destruct (Nat.eqb_spec u t); [contradiction|reflexivity]. }
  induction p as [| |l k IH|l w p IH|d p IH]; intros m m' rs ps t r E N; cbn [run trace map] in *.
  - injection E as <- <-. exists ps. rewrite app_nil_r. split; [constructor|auto].
  - discriminate.
  - destruct (m l) as [w|] eqn:M; [|discriminate]. destruct (IH w m m' rs (upd ps t (k w, r)) t r E (UT _ _ _ _ N)) as (ps' & X & A & B & C).
    exists ps'. split; [apply (TR _ _ [(t, false, l)] m (upd ps t (k w, r))); [eapply step_rd; eauto|exact X]|]. split; [exact A|]. split; [rewrite B; apply upd_length|]. intros u NE. rewrite (C u NE). apply UO, NE.
  - destruct (m l) as [w0|] eqn:M; [|discriminate]. destruct (IH (set m l w) m' rs (upd ps t (p, r)) t r E (UT _ _ _ _ N)) as (ps' & X & A & B & C).
    exists ps'. split; [apply (TR _ _ [(t, true, l)] (set m l w) (upd ps t (p, r))); [eapply step_wr; eauto|exact X]|]. split; [exact A|]. split; [rewrite B; apply upd_length|]. intros u NE. rewrite (C u NE). apply UO, NE.
  - destruct (run p m) as [[m2 r2]|] eqn:P; [|discriminate]. injection E as <- <-. destruct (IH m m2 r2 (upd ps t (p, r ++ [d])) t (r ++ [d]) P (UT _ _ _ _ N)) as (ps' & X & A & B & C).
    exists ps'. split; [apply (TR _ _ [] m (upd ps t (p, r ++ [d]))); [eapply step_add; eauto|exact X]|]. split; [rewrite A, <- app_assoc; reflexivity|]. split; [rewrite B; apply upd_length|]. intros u NE. rewrite (C u NE). apply UO, NE.
Qed.
(** Two threads whose accesses conflict when they run one after the other. *)
Lemma two_race (body : Z -> prog T D R) m0 m1 m2 ra rb l a b : run (body 0) m0 = Some (m1, ra) -> run (body 1) m1 = Some (m2, rb) ->
  In (a, l) (trace (body 0) m0) -> In (b, l) (trace (body 1) m1) -> a = true \/ b = true ->
  exists tr m ps, exec m0 (start body [[0]; [1]]) tr m ps /\ finished ps /\ race tr.
Proof.
  intros E0 E1 I0 I1 AB. 
  assert (SQ : forall p m, run (seqp p Done) m = run p m /\ trace (seqp p (Done : prog T D R)) m = trace p m).
  { induction p as [| |x k IH|x w p IH|d p IH]; intros m; cbn [seqp run trace]; auto.
    - destruct (m x); [split; [apply IH|f_equal; apply IH]|auto].
    - split; [destruct (m x); [apply IH|reflexivity]|f_equal; apply IH].
    - destruct (IH m) as [-> ->]. auto. }
  destruct (run_exec (seqp (body 0) Done) m0 m1 ra (start body [[0]; [1]]) 0%nat []) as (ps & X & A & L & O); [rewrite (proj1 (SQ _ _)); exact E0|reflexivity|].
  destruct (run_exec (seqp (body 1) Done) m1 m2 rb ps 1%nat []) as (ps' & X' & A' & L' & O'); [rewrite (proj1 (SQ _ _)); exact E1|rewrite O by lia; reflexivity|].
  rewrite (proj2 (SQ (body 0) m0)) in X. rewrite (proj2 (SQ (body 1) m1)) in X'.
  eexists. exists m2, ps'. split; [|split].
  - assert (TR : forall (ma : mem T D) (pa : list (thread T D R)) tr1 mb pb, exec ma pa tr1 mb pb -> forall tr2 mc pc, exec mb pb tr2 mc pc -> exec ma pa (tr1 ++ tr2) mc pc).
    { intros ma pa tr1 mb pb EA tr2 mc pc EB. induction EB; [rewrite app_nil_r; exact EA|]. rewrite app_assoc. eapply exec_next; eauto. }
    eapply TR; eassumption.
  - intros th I. apply In_nth_error in I. destruct I as (t & E). assert (B : (t < 2)%nat) by (replace 2%nat with (length ps') by (rewrite L', L; reflexivity); apply nth_error_Some; congruence).
    destruct t as [|[|t]]; [|rewrite A' in E; injection E as <-; reflexivity|lia].
    + rewrite O' in E by lia. rewrite A in E. injection E as <-. reflexivity.
  - exists 0%nat, 1%nat, a, b, l. split; [|split; [|split; [lia|exact AB]]].
    + apply in_or_app. left. apply in_map_iff. exists (a, l). auto.
    + apply in_or_app. right. apply in_map_iff. exists (b, l). auto.
Qed.
End Under.
