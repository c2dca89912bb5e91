(** Careless calls (C134) and the calls of the raster tool (C132). *)
From Coq Require Import List Bool Arith Lia.
From Verif Require Import Base BasicModel HandleModel HandleSpec HandleProofs HandleProofs2 HandleProofs3.
Import ListNotations.

Lemma phase_cases ph : {ph = Running} + {ph <> Running}.
Proof. destruct ph; auto; right; discriminate. Qed.

Lemma GetFile_down k p a n l ph : ph <> Running -> bucket p a <> None -> GetFile k p a (mkDriver n l ph) = UB.
Proof. intros P B. unfold GetFile. destruct (bucket p a); [|destruct (B eq_refl)]. destruct ph; [reflexivity|destruct (P eq_refl)|reflexivity]. Qed.

Lemma bucket_pass p a b : bucket p a = Some b -> bucket p (Some b) <> None.
Proof. unfold bucket. destruct p; discriminate. Qed.

Lemma RemoveFile_down t p a n l ph : ph <> Running -> bucket p a <> None -> RemoveFile t p a (mkDriver n l ph) = UB.
Proof. intros P B. unfold RemoveFile. destruct (bucket p a); [|destruct (B eq_refl)]. destruct ph; [reflexivity|destruct (P eq_refl)|reflexivity]. Qed.
Lemma GetFileMetadata_down k p a n l ph : ph <> Running -> bucket p a <> None -> GetFileMetadata k p a (mkDriver n l ph) = UB.
Proof.
  intros P B. unfold GetFileMetadata. destruct (bucket p a) as [b|] eqn:E; [|destruct (B eq_refl)].
  unfold bind at 1. rewrite (GetFile_down k p (Some b) n l ph P (bucket_pass p a b E)). reflexivity.
Qed.
Lemma GetStreamData_down k ok p a n l ph : ph <> Running -> bucket p a <> None -> GetStreamData k ok p a (mkDriver n l ph) = UB.
Proof.
  intros P B. unfold GetStreamData. destruct (bucket p a) as [b|] eqn:E; [|destruct (B eq_refl)].
  unfold bind at 1. rewrite (GetFile_down k p (Some b) n l ph P (bucket_pass p a b E)). reflexivity.
Qed.

Ltac down := match goal with P : ?ph <> Running |- _ => destruct ph; [reflexivity|destruct (P eq_refl)|reflexivity] end.

Lemma step_careless t gs w d o : Inv t gs w d -> effective w o -> ~ careful w d o -> ~ copies o ->
  step w o d = UB \/ (exists host, o = OInit host true) /\ step w o d = Throw.
Proof.
  destruct d as [n l ph]. intros I E C K. unfold careful, running in C.
  assert (W : forall i arg, effective w (OGetFile i arg 0) -> ~ (ph = Running \/ without_bucket w i arg) ->
    ph <> Running /\ exists p, at_ w i = Some (SGridfs p) /\ bucket p (pointer w arg) <> None).
  { intros i arg [p A] Q. split; [auto|]. exists p. split; [exact A|]. intros B. apply bucket_none in B. destruct B as [-> B].
    apply Q. right. split; assumption. }
  destruct o; cbn [step d_phase effective copies] in *; try tauto.
  - (* OInit *) destruct ph.
    1,2: destruct ok; [|exfalso; apply C; split; discriminate];
         destruct (IsIpAddress host) eqn:H; [exfalso; apply C; split; [discriminate|auto]|];
         right; split; [eauto|]; unfold InitClient, NewClient; rewrite H; cbn [negb]; exec; reflexivity.
    left. destruct ok; reflexivity.
  - (* ODestroy *) destruct E as [p A]. rewrite A. left. destruct p; down.
  - destruct E as [p A]. rewrite A. left. down.
  - destruct E as [p A]. rewrite A. left. down.
  - destruct E as [p A]. rewrite A. left. down.
  - destruct E as [p A]. rewrite A. left. down.
  - destruct E as [p A]. rewrite A. left. down.
  - destruct E as [p A]. rewrite A. left. down.
  - (* OFileNames *) destruct E as [p A]. rewrite A. left. destruct (phase_cases ph) as [->|P]; [|down].
    destruct a1; [exfalso; auto|]. destruct a2; [exfalso; auto|]. destruct p as [b|].
    + pose proof (slot_live t gs w n l Running i _ KClient b I ltac:(discriminate) A eq_refl) as L.
      unfold bind at 1. unfold ClientFileNames. unfold bind at 1. rewrite (GetGridFs_none n l b L). reflexivity.
    + reflexivity.
  - destruct E as [p A]. rewrite A. left. down.
  - destruct E as [p A]. rewrite A. left. down.
  - destruct E as [p A]. rewrite A. left. down.
  - destruct E as [p A]. rewrite A. left. down.
  - (* OQuery *) destruct E as [p A]. rewrite A in *. left. destruct (phase_cases ph) as [->|P]; [|down].
    destruct p; [exfalso; apply C; split; [reflexivity|discriminate]|reflexivity].
  - (* OCount *) destruct E as [p A]. rewrite A in *. left. destruct (phase_cases ph) as [->|P]; [|down].
    destruct p; [exfalso; apply C; split; [reflexivity|discriminate]|reflexivity].
  - (* ODeleteGridfs *) destruct E as [p A]. rewrite A in *. left. destruct p; [|exfalso; auto].
    assert (P : ph <> Running) by auto. down.
  - (* OGetFile *) destruct (W i arg E C) as (P & p & A & B). rewrite A. left. unfold bind at 1. rewrite (GetFile_down k _ _ n l ph P B). reflexivity.
  - (* ORemoveFile *) destruct (W i arg E C) as (P & p & A & B). rewrite A. left. unfold bind at 1. rewrite (RemoveFile_down n0 _ _ n l ph P B). reflexivity.
  - (* OGfsFileNames *) destruct E as [p A]. rewrite A. left. destruct (phase_cases ph) as [->|P]; [|down].
    assert (B : bucket p (pointer w arg) = None).
    { destruct (bucket p (pointer w arg)) as [b|] eqn:B; [|reflexivity]. exfalso. apply C. split; [reflexivity|]. intros [X Y].
      rewrite A in X. injection X as ->. unfold bucket in B. congruence. }
    unfold bind at 1. unfold GetFileNames. rewrite B. reflexivity.
  - (* OMetadata *) destruct (W i arg E C) as (P & p & A & B). rewrite A. left. unfold bind at 1. rewrite (GetFileMetadata_down k _ _ n l ph P B). reflexivity.
  - (* OStream *) destruct (W i arg E C) as (P & p & A & B). rewrite A. left. unfold bind at 1. rewrite (GetStreamData_down k ok _ _ n l ph P B). reflexivity.
  - (* ORead *) destruct (W i None E C) as (P & p & A & B). rewrite A. left. unfold bind at 1. unfold ReadGridFsFile. unfold bind at 1.
    rewrite (GetStreamData_down k1 ok p None n l ph P B). reflexivity.
  - (* OWrite *) destruct (W i None E C) as (P & p & A & B). rewrite A. left. unfold bind at 1. unfold WriteStreamDataAsGridfs. unfold bind at 1.
    rewrite (RemoveFile_down n0 p None n l ph P B). reflexivity.
  - (* OFree *) destruct E as (k & p & A). rewrite A. left. destruct k; try (exfalso; apply C; right; eauto 8; fail);
      assert (P : ph <> Running) by auto; down.
Qed.

(** The raster tool. *)
Section Tool.
Variables (c g : nat).

Lemma is_live_app l l' b k : is_live l' b k = true -> is_live (l ++ l') b k = true.
Proof. induction l as [|[x j] l IH]; cbn; intros H; [exact H|]. rewrite (IH H). apply orb_true_r. Qed.

Lemma mids_ok h : Forall reads_or_writes h -> forall n l, is_live l g KGridfs = true ->
  exists n' more, n <= n' /\ map snd more = repeat KBuffer (length (filter fails h)) /\ (forall x k, In (x, k) more -> n <= x) /\
    run [Some (SClient (Some c)); Some (SGridfs (Some g))] h (mkDriver n l Running) =
    Ok ([Some (SClient (Some c)); Some (SGridfs (Some g))], mkDriver n' (more ++ l) Running).
Proof.
  induction 1 as [|o h O H IH]; intros n l L.
  - exists n, []. cbn. repeat split; auto. intros x k [].
  - destruct o; try contradiction; destruct i as [|[|i]]; try contradiction; cbn [run filter fails].
    + destruct (ReadGridFsFile_ok k1 ok k2 n l (Some g) g eq_refl L) as (n1 & L1 & E1).
      destruct (IH n1 (left_over k1 ok n ++ l) (is_live_app _ _ _ _ L)) as (n2 & more & L2 & M & F & E2).
      exists n2, (more ++ left_over k1 ok n). split; [lia|]. split; [|split].
      * rewrite map_app, M. unfold left_over. destruct (negb ok && (k1 <? 5)); cbn [map length repeat snd].
        -- rewrite <- repeat_cons. reflexivity.
        -- apply app_nil_r.
      * intros x k X. apply in_app_or in X. destruct X as [X|X]; [specialize (F x k X); lia|].
        unfold left_over in X. destruct (negb ok && (k1 <? 5)); [|destruct X]. destruct X as [X|[]]. injection X as <- <-. lia.
      * unfold bind at 1. cbn [step at_ nth_error]. unfold bind at 1. rewrite E1. cbn [obind fst snd ret]. rewrite E2, app_assoc. reflexivity.
    + destruct (WriteStreamDataAsGridfs_ok n0 k n l g L) as (n1 & r & L1 & E1).
      destruct (IH n1 l L) as (n2 & more & L2 & M & F & E2).
      exists n2, more. split; [lia|]. split; [exact M|]. split; [intros x j X; specialize (F x j X); lia|].
      unfold bind at 1. cbn [step at_ nth_error]. unfold bind at 1. rewrite E1. cbn [obind fst snd ret]. exact E2.
Qed.
End Tool.

Lemma mids_none c h : Forall reads_or_writes h -> forall n l,
  exists n', n <= n' /\ run [Some (SClient (Some c)); Some (SGridfs None)] h (mkDriver n l Running) =
    Ok ([Some (SClient (Some c)); Some (SGridfs None)], mkDriver n' l Running).
Proof.
  induction 1 as [|o h O H IH]; intros n l.
  - exists n. split; [lia|reflexivity].
  - destruct o; try contradiction; destruct i as [|[|i]]; try contradiction; cbn [run].
    + destruct (IH n l) as (n' & L & E). exists n'. split; [lia|]. unfold bind at 1. cbn [step at_ nth_error]. cbn. exact E.
    + destruct (IH (S n) l) as (n' & L & E). exists n'. split; [lia|]. unfold bind at 1. cbn [step at_ nth_error].
      unfold WriteStreamDataAsGridfs. cbn [RemoveFile bucket]. exec. cbn. rewrite ?Nat.eqb_refl. cbn. rewrite ?Nat.eqb_refl. exact E.
Qed.

Lemma drop_app_fresh more l b : (forall k, ~ In (b, k) more) -> drop (more ++ l) b = more ++ drop l b.
Proof.
  induction more as [|[x j] more IH]; cbn [app drop]; intros H; [reflexivity|].
  destruct (Nat.eqb_spec b x) as [->|D]; [exfalso; apply (H j); left; reflexivity|].
  rewrite IH; [reflexivity|]. intros k X. apply (H k). right. exact X.
Qed.

Lemma tool_ok host a1 a2 mids : IsIpAddress host = true -> Forall reads_or_writes mids ->
  exists n lost, run [] (OInit host true :: OGridFs 0 a1 a2 :: mids ++ [ODeleteGridfs 1; ODestroy 0; ODeleteClient 0]) start
    = Ok ([None; None], mkDriver n lost After)
    /\ map snd lost = repeat KBuffer (if a1 || a2 then length (filter fails mids) else 0).
Proof.
  intros H M. cbn [run]. unfold start. unfold bind at 1. cbn [step].
  unfold bind at 1. rewrite (InitClient_ok 0 [] host Before ltac:(discriminate) H). cbn [obind fst snd ret add app].
  unfold bind at 1. cbn [step at_ nth_error]. destruct (a1 || a2) eqn:A.
  - destruct (GetGridFs_ok 4 [(3, KClient)] 3 a1 a2 eq_refl A) as (g & n1 & L1 & E1).
    unfold bind at 1. rewrite E1. cbn [obind fst snd ret add app]. rewrite run_app.
    destruct (mids_ok 3 g mids M n1 [(g, KGridfs); (3, KClient)]) as (n2 & more & L2 & S & F & E2).
    { cbn [is_live code]. rewrite Nat.eqb_refl. reflexivity. }
    unfold bind at 1. rewrite E2. cbn [obind fst snd run]. clear E1 E2.
    assert (G : is_live (more ++ [(g, KGridfs); (3, KClient)]) g KGridfs = true).
    { apply is_live_app. cbn [is_live code]. rewrite Nat.eqb_refl. reflexivity. }
    unfold bind at 1. cbn [step at_ nth_error]. unfold bind at 1. rewrite (DeleteGridfs_ok n2 _ g G). cbn [obind fst snd ret clear upd].
    rewrite drop_app_fresh by (intros k X; specialize (F g k X); lia). cbn [drop]. rewrite Nat.eqb_refl.
    unfold bind at 1. cbn [step at_ nth_error]. unfold bind at 1.
    rewrite (Destroy_ok n2 _ 3) by (apply is_live_app; reflexivity). cbn [obind fst snd ret].
    rewrite drop_app_fresh by (intros k X; specialize (F 3 k X); lia). cbn [drop Nat.eqb]. rewrite app_nil_r.
    exists n2, more. split; [reflexivity|exact S].
  - apply orb_false_iff in A. destruct A as [-> ->].
    unfold bind at 1. rewrite (GetGridFs_none 4 [(3, KClient)] 3 eq_refl). cbn [obind fst snd ret add app]. rewrite run_app.
    destruct (mids_none 3 mids M 5 [(3, KClient)]) as (n2 & L2 & E2). unfold bind at 1. rewrite E2. cbn [obind fst snd run].
    exists n2, []. split; reflexivity.
Qed.
