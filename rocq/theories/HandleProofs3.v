(** Careful programs keep the invariant (C131), the raster tool's calls (C132),
    and what careless calls do (C133, C134). *)
From Coq Require Import List Bool Arith Lia.
From Verif Require Import Base BasicModel HandleModel HandleSpec HandleProofs HandleProofs2.
Import ListNotations.

Ltac bindrw E := unfold bind at 1; rewrite E; cbn [obind fst snd].

Lemma slot_live t gs w n l ph i s k b : Inv t gs w (mkDriver n l ph) -> ph <> After -> at_ w i = Some s -> holds s = (k, Some b) -> is_live l b k = true.
Proof. intros I P A H. apply is_live_iff. destruct (i_slot _ _ _ _ I i s k b A H) as [X|(X & _)]; [exact X|]. cbn in X. contradiction. Qed.

Lemma slot_live' t gs w n l ph i s k b : Inv t gs w (mkDriver n l ph) -> k <> KClient -> at_ w i = Some s -> holds s = (k, Some b) -> is_live l b k = true.
Proof. intros I P A H. apply is_live_iff. destruct (i_slot _ _ _ _ I i s k b A H) as [X|(_ & X & _)]; [exact X|contradiction]. Qed.

Lemma bucket_live t gs w n l ph i p arg b : Inv t gs w (mkDriver n l ph) -> at_ w i = Some (SGridfs p) -> bucket p (pointer w arg) = Some b -> is_live l b KGridfs = true.
Proof.
  intros I A B. unfold bucket in B. destruct p as [x|].
  - injection B as ->. apply (slot_live' t gs w n l ph i _ KGridfs b I ltac:(discriminate) A eq_refl).
  - unfold pointer in B. destruct arg as [j|]; [|discriminate]. destruct (at_ w j) as [s|] eqn:E; [|discriminate].
    destruct s; try discriminate. destruct k; try discriminate. subst p.
    apply (slot_live' t gs w n l ph j _ KGridfs b I ltac:(discriminate) E eq_refl).
Qed.

Lemma bucket_none p q : bucket p q = None -> p = None /\ q = None.
Proof. unfold bucket. destruct p; [discriminate|auto]. Qed.

Lemma without w i arg p : running (mkDriver 0 [] Running) -> at_ w i = Some (SGridfs p) -> without_bucket w i arg -> bucket p (pointer w arg) = None.
Proof. intros _ A [B C]. rewrite A in B. injection B as ->. exact C. Qed.

Lemma step_inv t gs w d o : Inv t gs w d -> careful w d o -> (t = true -> tidy w d o) ->
  exists w' d', step w o d = Ok (w', d') /\ Inv t gs w' d'.
Proof.
  destruct d as [n l ph]. intros I C T. unfold careful, running in C. unfold tidy in T.
  assert (Skip : exists w' d', Ok (w, mkDriver n l ph) = Ok (w', d') /\ Inv t gs w' d') by eauto.
  destruct o; cbn [step d_phase] in *; try contradiction.
  - (* OInit *) destruct C as [P H]. destruct ok.
    + bindrw (InitClient_ok n l host ph P (H eq_refl)). eexists _, _. split; [reflexivity|].
      apply (m_add t gs w n _ l ph Running I _ KClient); [lia|intros X; contradiction|reflexivity].
    + bindrw (InitClient_none n l host ph P). eexists _, _. split; [reflexivity|].
      apply (m_same t gs w n _ l ph Running I); [lia|intros X; contradiction].
  - (* ODestroy *) destruct (at_ w i) as [[[b|]| | | |]|] eqn:A; try exact Skip.
    + subst ph. pose proof (slot_live t gs w n l Running i _ KClient b I ltac:(discriminate) A eq_refl) as L.
      bindrw (Destroy_ok n l b L). eexists _, _. split; [reflexivity|].
      apply (m_destroy t gs w n l Running I i b A). apply is_live_iff, L.
    + exfalso. apply (proj1 (i_null _ _ _ _ I i _ KClient A eq_refl) eq_refl).
  - (* ODeleteClient *) destruct (at_ w i) as [[p| | | |]|] eqn:A; try exact Skip. eexists _, _. split; [reflexivity|].
    apply (m_clear t gs w n l ph I i _ A). intros E b B. cbn in B. subst p. intros X. apply (T E). exists b. split; [exact A|exact X].
  - (* ODatabaseNames *) destruct (at_ w i) as [[[b|]| | | |]|] eqn:A; try exact Skip.
    + subst ph. destruct (GetDatabaseNames_ok n l b ok) as (n' & L & E); [apply (slot_live t gs w n l Running i _ KClient b I ltac:(discriminate) A eq_refl)|].
      bindrw E. eexists _, _. split; [reflexivity|]. apply (m_same t gs w n _ l Running Running I); [lia|auto].
    + exfalso. apply (proj1 (i_null _ _ _ _ I i _ KClient A eq_refl) eq_refl).
  - (* OGetDatabase *) destruct (at_ w i) as [[[b|]| | | |]|] eqn:A; try exact Skip.
    + subst ph. bindrw (GetDatabase_ok n l b (slot_live t gs w n l Running i _ KClient b I ltac:(discriminate) A eq_refl)).
      eexists _, _. split; [reflexivity|]. apply (m_add t gs w n _ l Running Running I _ KDatabase); [lia|auto|reflexivity].
    + exfalso. apply (proj1 (i_null _ _ _ _ I i _ KClient A eq_refl) eq_refl).
  - (* OGetCollection *) destruct (at_ w i) as [[[b|]| | | |]|] eqn:A; try exact Skip.
    + subst ph. pose proof (slot_live t gs w n l Running i _ KClient b I ltac:(discriminate) A eq_refl) as L. destruct has.
      * bindrw (GetCollection_ok n l b L). eexists _, _. split; [reflexivity|].
        apply (m_add t gs w n _ l Running Running I _ KCollection); [lia|auto|reflexivity].
      * bindrw (GetCollection_none n l b L). eexists _, _. split; [reflexivity|].
        apply (m_null t gs _ (S n) _ Running) with (k := KCollection); try discriminate; [|reflexivity].
        apply (m_leak t gs w n _ l Running I); [|lia]. destruct t; [exfalso; apply (T eq_refl); cbn; eauto|reflexivity].
    + exfalso. apply (proj1 (i_null _ _ _ _ I i _ KClient A eq_refl) eq_refl).
  - (* OGetGridFs *) destruct (at_ w i) as [[[b|]| | | |]|] eqn:A; try exact Skip.
    + subst ph. pose proof (slot_live t gs w n l Running i _ KClient b I ltac:(discriminate) A eq_refl) as L.
      destruct (a1 || a2) eqn:B.
      * destruct (GetGridFs_ok n l b a1 a2 L B) as (g & n' & Q & E). bindrw E. eexists _, _. split; [reflexivity|].
        apply (m_add t gs w n _ l Running Running I _ KGridfs); [lia|auto|reflexivity].
      * apply orb_false_iff in B. destruct B as [-> ->]. bindrw (GetGridFs_none n l b L). eexists _, _. split; [reflexivity|].
        apply (m_null t gs _ _ _ Running) with (k := KGridfs); try discriminate; [|reflexivity]. apply (m_same t gs w n _ l Running Running I); [lia|auto].
    + exfalso. apply (proj1 (i_null _ _ _ _ I i _ KClient A eq_refl) eq_refl).
  - (* OGridFs *) destruct (at_ w i) as [[[b|]| | | |]|] eqn:A; try exact Skip.
    + subst ph. pose proof (slot_live t gs w n l Running i _ KClient b I ltac:(discriminate) A eq_refl) as L.
      destruct (a1 || a2) eqn:B.
      * destruct (GetGridFs_ok n l b a1 a2 L B) as (g & n' & Q & E). bindrw E. eexists _, _. split; [reflexivity|].
        apply (m_add t gs w n _ l Running Running I _ KGridfs); [lia|auto|reflexivity].
      * apply orb_false_iff in B. destruct B as [-> ->]. bindrw (GetGridFs_none n l b L). eexists _, _. split; [reflexivity|].
        apply (m_null t gs _ _ _ Running) with (k := KGridfs); try discriminate; [|reflexivity]. apply (m_same t gs w n _ l Running Running I); [lia|auto].
    + exfalso. apply (proj1 (i_null _ _ _ _ I i _ KClient A eq_refl) eq_refl).
  - (* OCollectionNames *) destruct (at_ w i) as [[[b|]| | | |]|] eqn:A; try exact Skip.
    + subst ph. destruct (ClientCollectionNames_ok n l b ok) as (n' & L & E); [apply (slot_live t gs w n l Running i _ KClient b I ltac:(discriminate) A eq_refl)|].
      bindrw E. eexists _, _. split; [reflexivity|]. apply (m_same t gs w n _ l Running Running I); [lia|auto].
    + exfalso. apply (proj1 (i_null _ _ _ _ I i _ KClient A eq_refl) eq_refl).
  - (* OFileNames *) destruct (at_ w i) as [[[b|]| | | |]|] eqn:A; try exact Skip.
    + destruct C as [-> Q]. pose proof (slot_live t gs w n l Running i _ KClient b I ltac:(discriminate) A eq_refl) as L.
      destruct (ClientFileNames_ok a1 a2 n0 n l b L) as (x & n' & B & E).
      * destruct Q as [-> | ->]; [reflexivity|apply orb_true_r].
      * apply (i_fresh _ _ _ _ I).
      * bindrw E. eexists _, _. split; [reflexivity|]. apply (m_leak t gs w n _ l Running I); [|lia]. destruct t; [exfalso; apply (T eq_refl); cbn; eauto|reflexivity].
    + exfalso. apply (proj1 (i_null _ _ _ _ I i _ KClient A eq_refl) eq_refl).
  - (* ODatabase *) destruct (at_ w j) as [[| | | |[] p]|] eqn:A; try exact Skip. subst ph. destruct p as [b|].
    + bindrw (WrapDatabase_ok n l b (slot_live t gs w n l Running j _ KDatabase b I ltac:(discriminate) A eq_refl)).
      eexists _, _. split; [reflexivity|]. apply (m_move t gs w n l Running I j _ _ A); reflexivity.
    + exfalso. apply (proj2 (i_null _ _ _ _ I j _ KDatabase A eq_refl) eq_refl).
  - (* ODeleteDatabase *) destruct (at_ w i) as [[|[b|]| | |]|] eqn:A; try exact Skip.
    + subst ph. bindrw (DeleteDatabase_ok n l b (slot_live t gs w n l Running i _ KDatabase b I ltac:(discriminate) A eq_refl)).
      eexists _, _. split; [reflexivity|]. apply (m_kill t gs w n l Running I i _ KDatabase b A eq_refl).
    + exfalso. apply (proj2 (i_null _ _ _ _ I i _ KDatabase A eq_refl) eq_refl).
  - (* ODbCollectionNames *) destruct (at_ w i) as [[|[b|]| | |]|] eqn:A; try exact Skip.
    + subst ph. destruct (DbCollectionNames_ok n l b ok) as (n' & L & E); [apply (slot_live t gs w n l Running i _ KDatabase b I ltac:(discriminate) A eq_refl)|].
      bindrw E. eexists _, _. split; [reflexivity|]. apply (m_same t gs w n _ l Running Running I); [lia|auto].
    + exfalso. apply (proj2 (i_null _ _ _ _ I i _ KDatabase A eq_refl) eq_refl).
  - (* OCollection *) destruct (at_ w j) as [[| | | |[] p]|] eqn:A; try exact Skip. eexists _, _. split; [reflexivity|].
    apply (m_move t gs w n l ph I j _ _ A); reflexivity.
  - (* ODeleteCollection *) destruct (at_ w i) as [[| |[b|]| |]|] eqn:A; try exact Skip; subst ph.
    + bindrw (DeleteCollection_ok n l b (slot_live t gs w n l Running i _ KCollection b I ltac:(discriminate) A eq_refl)).
      eexists _, _. split; [reflexivity|]. apply (m_kill t gs w n l Running I i _ KCollection b A eq_refl).
    + bindrw (DeleteCollection_null n l). eexists _, _. split; [reflexivity|]. apply (m_clear t gs w n l Running I i _ A). cbn. intros; discriminate.
  - (* OQuery *) destruct (at_ w i) as [[| |[b|]| |]|] eqn:A; try exact Skip; destruct C as [-> Q]; [|destruct (Q eq_refl)].
    bindrw (ExecuteQuery_ok n l b (slot_live t gs w n l Running i _ KCollection b I ltac:(discriminate) A eq_refl)).
    eexists _, _. split; [reflexivity|]. apply (m_add t gs w n _ l Running Running I _ KCursor); [lia|auto|reflexivity].
  - (* OCount *) destruct (at_ w i) as [[| |[b|]| |]|] eqn:A; try exact Skip; destruct C as [-> Q]; [|destruct (Q eq_refl)].
    bindrw (QueryRecordsCount_ok n l b (slot_live t gs w n l Running i _ KCollection b I ltac:(discriminate) A eq_refl)).
    eexists _, _. split; [reflexivity|]. apply (m_leak t gs w n _ l Running I); [|lia]. destruct t; [exfalso; apply (T eq_refl); cbn; eauto|reflexivity].
  - (* OGridfs *) destruct j as [j|].
    + destruct (at_ w j) as [[| | | |[] p]|] eqn:A; try exact Skip. eexists _, _. split; [reflexivity|].
      apply (m_move t gs w n l ph I j _ _ A); reflexivity.
    + eexists _, _. split; [reflexivity|]. apply (m_null t gs w n l ph I) with (k := KGridfs); [reflexivity|discriminate|discriminate].
  - (* ODeleteGridfs *) destruct (at_ w i) as [[| | |[b|]|]|] eqn:A; try exact Skip.
    + destruct C as [->|C]; [|discriminate].
      bindrw (DeleteGridfs_ok n l b (slot_live t gs w n l Running i _ KGridfs b I ltac:(discriminate) A eq_refl)).
      eexists _, _. split; [reflexivity|]. apply (m_kill t gs w n l Running I i _ KGridfs b A eq_refl).
    + eexists _, _. split; [reflexivity|]. apply (m_clear t gs w n l ph I i _ A). cbn. intros; discriminate.
  - (* OGetFile *) destruct (at_ w i) as [[| | |p|]|] eqn:A; try exact Skip. destruct (bucket p (pointer w arg)) as [b|] eqn:B.
    + destruct C as [->|C]; [|rewrite (without _ _ _ p eq_refl A C) in B; discriminate].
      pose proof (bucket_live t gs w n l Running i p arg b I A B) as L. bindrw (GetFile_ok k n l p (pointer w arg) b B L).
      destruct (k <? 5); cbn [obind fst snd]; (eexists _, _; split; [reflexivity|]).
      * apply (m_add t gs w n _ l Running Running I _ KFile); [lia|auto|reflexivity].
      * apply (m_null t gs _ _ _ Running) with (k := KFile); try discriminate; [|reflexivity]. apply (m_same t gs w n _ l Running Running I); [lia|auto].
    + unfold GetFile. rewrite B. eexists _, _. split; [reflexivity|]. apply (m_null t gs w n l ph I) with (k := KFile); [reflexivity|discriminate|discriminate].
  - (* ORemoveFile *) destruct (at_ w i) as [[| | |p|]|] eqn:A; try exact Skip. destruct (bucket p (pointer w arg)) as [b|] eqn:B.
    + destruct C as [->|C]; [|rewrite (without _ _ _ p eq_refl A C) in B; discriminate].
      pose proof (bucket_live t gs w n l Running i p arg b I A B) as L. destruct (RemoveFile_ok n0 n l p (pointer w arg) b B L) as (n' & Q & E).
      bindrw E. eexists _, _. split; [reflexivity|]. apply (m_same t gs w n _ l Running Running I); [lia|auto].
    + unfold RemoveFile. rewrite B. exact Skip.
  - (* OGfsFileNames *) destruct (at_ w i) as [[| | |p|]|] eqn:A; try exact Skip. destruct C as [-> Q]. destruct (bucket p (pointer w arg)) as [b|] eqn:B.
    + pose proof (bucket_live t gs w n l Running i p arg b I A B) as L. destruct (GetFileNames_ok n0 n l p (pointer w arg) b B L) as (n' & R & E).
      bindrw E. eexists _, _. split; [reflexivity|]. apply (m_leak t gs w n _ l Running I); [|lia]. destruct t; [exfalso; apply (T eq_refl); cbn; eauto|reflexivity].
    + exfalso. apply bucket_none in B. destruct B as [-> B]. apply Q. split; [exact A|exact B].
  - (* OMetadata *) destruct (at_ w i) as [[| | |p|]|] eqn:A; try exact Skip. destruct (bucket p (pointer w arg)) as [b|] eqn:B.
    + destruct C as [->|C]; [|rewrite (without _ _ _ p eq_refl A C) in B; discriminate].
      pose proof (bucket_live t gs w n l Running i p arg b I A B) as L. bindrw (GetFileMetadata_ok k n l p (pointer w arg) b B L).
      destruct (k <? 5); cbn [obind fst snd]; (eexists _, _; split; [reflexivity|]).
      * apply (m_add t gs w n _ l Running Running I _ KBson); [lia|auto|reflexivity].
      * apply (m_null t gs _ _ _ Running) with (k := KBson); try discriminate; [|reflexivity]. apply (m_same t gs w n _ l Running Running I); [lia|auto].
    + unfold GetFileMetadata. rewrite B. eexists _, _. split; [reflexivity|]. apply (m_null t gs w n l ph I) with (k := KBson); [reflexivity|discriminate|discriminate].
  - (* OStream *) destruct (at_ w i) as [[| | |p|]|] eqn:A; try exact Skip. destruct (bucket p (pointer w arg)) as [b|] eqn:B.
    + destruct C as [->|C]; [|rewrite (without _ _ _ p eq_refl A C) in B; discriminate].
      pose proof (bucket_live t gs w n l Running i p arg b I A B) as L. destruct (GetStreamData_ok k ok n l p (pointer w arg) b B L) as (n' & R & E).
      bindrw E. destruct (k <? 5); cbn [obind fst snd]; (eexists _, _; split; [reflexivity|]).
      * apply (m_add t gs w n _ l Running Running I _ KBuffer); [lia|auto|reflexivity].
      * apply (m_null t gs _ _ _ Running) with (k := KBuffer); try discriminate; [|reflexivity]. apply (m_same t gs w n _ l Running Running I); [lia|auto].
    + unfold GetStreamData. rewrite B. eexists _, _. split; [reflexivity|]. apply (m_null t gs w n l ph I) with (k := KBuffer); [reflexivity|discriminate|discriminate].
  - (* ORead *) destruct (at_ w i) as [[| | |p|]|] eqn:A; try exact Skip. destruct p as [b|].
    + destruct C as [->|[C _]]; [|congruence].
      destruct (ReadGridFsFile_ok k1 ok k2 n l (Some b) b eq_refl (slot_live t gs w n l Running i _ KGridfs b I ltac:(discriminate) A eq_refl)) as (n' & R & E).
      bindrw E. eexists _, _. split; [reflexivity|]. unfold left_over in R |- *. destruct (negb ok && (k1 <? 5)) eqn:F; cbn [app length] in R |- *.
      * apply (m_leak t gs w n _ l Running I); [|lia]. destruct t; [exfalso; apply andb_true_iff in F; destruct F as [F1 F2]; apply (T eq_refl); cbn; split; [destruct ok; [discriminate|reflexivity]|]; split; [apply Nat.ltb_lt, F2|eauto]|reflexivity].
      * apply (m_same t gs w n _ l Running Running I); [lia|auto].
    + exact Skip.
  - (* OWrite *) destruct (at_ w i) as [[| | |p|]|] eqn:A; try exact Skip. destruct p as [b|].
    + destruct C as [->|[C _]]; [|congruence].
      destruct (WriteStreamDataAsGridfs_ok n0 k n l b (slot_live t gs w n l Running i _ KGridfs b I ltac:(discriminate) A eq_refl)) as (n' & r & R & E).
      bindrw E. eexists _, _. split; [reflexivity|]. apply (m_same t gs w n _ l Running Running I); [lia|auto].
    + clear C. enough (exists n' r, n <= n' /\ WriteStreamDataAsGridfs n0 k None (mkDriver n l ph) = Ok (r, mkDriver n' l ph)) as (n' & r & R & E).
      { bindrw E. eexists _, _. split; [reflexivity|]. apply (m_same t gs w n _ l ph ph I); [lia|auto]. }
      assert (W : forall tt kk nn m, write_attempts tt kk m None (mkDriver nn ((n, KBson) :: l) ph) = Ok (false, mkDriver nn ((n, KBson) :: l) ph)).
      { induction tt as [|u IH]; intros; cbn [write_attempts]; [reflexivity|]. unfold bind, WriteStreamData, bucket, ret. cbn [obind fst snd]. apply IH. }
      unfold WriteStreamDataAsGridfs, RemoveFile, bucket. unfold bind at 1. unfold ret at 1. cbn [obind fst snd].
      unfold bind at 1. unfold make. cbn [obind fst snd d_next d_live d_phase]. unfold bind at 1. rewrite W. exec.
      exists (S n), false. split; [lia|reflexivity].
  - (* OFree *) destruct (at_ w j) as [[| | | |k p]|] eqn:A; try exact Skip.
    assert (Q : (match k with KBson | KBuffer => ret tt | _ => call end) (mkDriver n l ph) = Ok (tt, mkDriver n l ph)).
    { destruct C as [->|(k0 & p0 & E & [-> | ->])]; [destruct k; reflexivity|injection E as -> _; reflexivity..]. }
    bindrw Q. destruct p as [b|].
    + assert (L : is_live l b k = true).
      { destruct C as [->|(k0 & p0 & E & D)]; [apply (slot_live t gs w n l Running j _ k b I ltac:(discriminate) A eq_refl)|].
        injection E as -> _. apply (slot_live' t gs w n l ph j (SPointer k0 (Some b)) k0 b I); [intuition congruence|exact A|reflexivity]. }
      unfold kill at 1. unfold bind. cbn [d_live]. rewrite L. cbn [obind fst snd d_next d_phase]. eexists _, _. split; [reflexivity|].
      apply (m_kill t gs w n l ph I j _ k b A eq_refl).
    + eexists _, _. split; [reflexivity|]. apply (m_clear t gs w n l ph I j _ A). cbn. intros; discriminate.
Qed.

Lemma run_inv t gs h w d : Inv t gs w d -> always careful w d h -> (t = true -> always tidy w d h) ->
  exists w' d', run w h d = Ok (w', d') /\ Inv t gs w' d'.
Proof.
  revert w d. induction h as [|o h IH]; intros w d I C T; cbn [run always] in *.
  - exists w, d. split; [reflexivity|exact I].
  - destruct C as [C1 C2]. destruct (step_inv t gs w d o I C1 ltac:(intros E; apply (T E))) as (w1 & d1 & E1 & I1).
    destruct (IH w1 d1 I1 (C2 w1 d1 E1)) as (w2 & d2 & E2 & I2); [intros E; apply (proj2 (T E) w1 d1 E1)|].
    exists w2, d2. split; [|exact I2]. unfold bind. rewrite E1. exact E2.
Qed.

Lemma inv_start t : Inv t [] [] start.
Proof.
  constructor; cbn; try tauto.
  - constructor.
  - intros i s k b A. unfold at_ in A. destruct i; discriminate A.
  - intros i j s s' k k' b A. unfold at_ in A. destruct i; discriminate A.
  - intros i s k A. unfold at_ in A. destruct i; discriminate A.
Qed.

(** A call that leaves something behind. *)
Lemma step_leak t gs w d o : Inv t gs w d -> careful w d o -> leaks w d o ->
  exists w' d' b k, step w o d = Ok (w', d') /\ Inv false ((b, k) :: gs) w' d'.
Proof.
  destruct d as [n l ph]. intros I C K. unfold careful, running in C.
  destruct o; cbn [leaks step d_phase] in *; try contradiction.
  - destruct K as (b & A & L). rewrite A. eexists _, _, b, KClient. split; [reflexivity|].
    apply (m_abandon t gs w n l ph I i _ KClient b A eq_refl). exact L.
  - destruct K as (-> & p & A). rewrite A. subst ph. destruct p as [b|].
    + bindrw (GetCollection_none n l b (slot_live t gs w n l Running i _ KClient b I ltac:(discriminate) A eq_refl)).
      eexists _, _, _, _. split; [reflexivity|].
      apply (m_null false _ w (S n) _ Running) with (k := KCollection); try discriminate; [|reflexivity].
      apply (m_ghost t gs w n (S n) l Running I KDatabase n). lia.
    + exfalso. apply (proj1 (i_null _ _ _ _ I i _ KClient A eq_refl) eq_refl).
  - destruct K as (p & A). rewrite A. destruct C as [-> Q]. destruct p as [b|].
    + destruct (ClientFileNames_ok a1 a2 n0 n l b (slot_live t gs w n l Running i _ KClient b I ltac:(discriminate) A eq_refl)) as (x & n' & B & E).
      * destruct Q as [-> | ->]; [reflexivity|apply orb_true_r].
      * apply (i_fresh _ _ _ _ I).
      * bindrw E. eexists _, _, _, _. split; [reflexivity|]. apply (m_ghost t gs w n n' l Running I KBson x). lia.
    + exfalso. apply (proj1 (i_null _ _ _ _ I i _ KClient A eq_refl) eq_refl).
  - destruct K as (p & A). rewrite A in *. destruct C as [-> Q]. destruct p as [b|]; [|destruct (Q eq_refl)].
    bindrw (QueryRecordsCount_ok n l b (slot_live t gs w n l Running i _ KCollection b I ltac:(discriminate) A eq_refl)).
    eexists _, _, _, _. split; [reflexivity|]. apply (m_ghost t gs w n (S n) l Running I KBson n). lia.
  - destruct K as (p & A). rewrite A. destruct C as [-> Q]. destruct (bucket p (pointer w arg)) as [b|] eqn:B.
    + destruct (GetFileNames_ok n0 n l p (pointer w arg) b B (bucket_live t gs w n l Running i p arg b I A B)) as (n' & R & E).
      bindrw E. eexists _, _, _, _. split; [reflexivity|]. apply (m_ghost t gs w n n' l Running I KBson n). lia.
    + exfalso. apply bucket_none in B. destruct B as [-> B]. apply Q. split; [exact A|exact B].
  - destruct K as (-> & K & b & A). rewrite A. destruct C as [->|[C _]]; [|congruence].
    destruct (ReadGridFsFile_ok k1 false k2 n l (Some b) b eq_refl (slot_live t gs w n l Running i _ KGridfs b I ltac:(discriminate) A eq_refl)) as (n' & R & E).
    bindrw E. unfold left_over in *. apply Nat.ltb_lt in K. rewrite K in *. cbn [negb andb app length] in *.
    eexists _, _, _, _. split; [reflexivity|]. apply (m_ghost t gs w n n' l Running I KBuffer (S (S n))). lia.
Qed.

Lemma always_app P h h' w d : always P w d (h ++ h') ->
  always P w d h /\ forall w' d', run w h d = Ok (w', d') -> always P w' d' h'.
Proof.
  revert w d. induction h as [|o h IH]; intros w d A; cbn [app always run] in *.
  - split; [exact Logic.I|]. intros w' d' E. unfold ret in E. injection E as <- <-. exact A.
  - destruct A as [A1 A2]. split.
    + split; [exact A1|]. intros w' d' E. apply (proj1 (IH w' d' (A2 w' d' E))).
    + intros w' d' E. unfold bind in E. destruct (step w o d) as [[w1 d1]| |] eqn:E1; cbn [obind fst snd] in E; try discriminate.
      apply (proj2 (IH w1 d1 (A2 w1 d1 eq_refl)) w' d' E).
Qed.

Lemma run_app h h' w d : run w (h ++ h') d = bind (run w h) (fun w' => run w' h') d.
Proof.
  revert w d. induction h as [|o h IH]; intros w d; cbn [app run]; [reflexivity|].
  unfold bind at 1. unfold bind at 2. unfold bind. destruct (step w o d) as [[w1 d1]| |]; cbn [obind fst snd]; [|reflexivity..].
  rewrite IH. reflexivity.
Qed.
