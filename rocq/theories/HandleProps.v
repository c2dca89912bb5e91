(** C131-C134: objects of the MongoDB driver. *)
From Coq Require Import String List Bool Arith Lia.
From Verif Require Import Base BasicModel HandleModel HandleSpec HandleProofs HandleProofs2 HandleProofs3 HandleProofs4.
Import ListNotations.

(** C131. A careful program never uses an object of the driver that is gone: all
    its calls return, and everything it holds is alive, but for clients after the
    driver was shut down; no two places hold the same object. *)
Theorem C131_safe h : always careful [] start h ->
  exists w d, run [] h start = Ok (w, d)
  /\ (forall i s k b, at_ w i = Some s -> holds s = (k, Some b) -> alive d b k \/ d_phase d = After /\ k = KClient)
  /\ (forall i j s s' k k' b, at_ w i = Some s -> at_ w j = Some s' -> holds s = (k, Some b) -> holds s' = (k', Some b) -> i = j).
Proof.
  intros C. destruct (run_inv false [] h [] start (inv_start false) C ltac:(discriminate)) as (w & d & E & I).
  exists w, d. split; [exact E|]. split; [|apply (i_uniq _ _ _ _ I)].
  intros i s k b A H. destruct (i_slot _ _ _ _ I i s k b A H) as [X|(X & Y & _)]; [left; exact X|right; auto].
Qed.
Print Assumptions C131_safe.

(** If moreover no call leaks, all objects that are alive are held: a program that
    has given up everything leaves nothing. *)
Theorem C131_clean h : always careful [] start h -> always tidy [] start h ->
  exists w d, run [] h start = Ok (w, d)
  /\ (forall b k, alive d b k -> held w b k)
  /\ ((forall i, at_ w i = None) -> d_live d = []).
Proof.
  intros C T. destruct (run_inv true [] h [] start (inv_start true) C (fun _ => T)) as (w & d & E & I).
  exists w, d. split; [exact E|]. split; [exact (i_tidy _ _ _ _ I eq_refl)|].
  intros N. destruct (d_live d) as [|[b k] l] eqn:L; [reflexivity|].
  destruct (i_tidy _ _ _ _ I eq_refl b k) as (i & s & A & _); [rewrite L; left; reflexivity|]. rewrite N in A. discriminate.
Qed.
Print Assumptions C131_clean.

Lemma no_place w : Forall (fun s => s = None) w -> forall i, at_ w i = None.
Proof. intros F i. unfold at_. destruct (nth_error w i) as [s|] eqn:E; [|reflexivity]. apply nth_error_In in E. rewrite Forall_forall in F. apply F, E. Qed.

Definition localhost : bytes := str "127.0.0.1"%string.

(** Two clients of one driver; a collection that is asked for records, a bucket
    that is written and read, a file, metadata; everything is given back. *)
Definition session : list op :=
  [OInit localhost true; OInit localhost true; OGetCollection 0 true; OCollection 2; OQuery 3; OFree 4; ODeleteCollection 3;
   OGridFs 1 false true; OWrite 5 2 3; ORead 5 4 true 0; OGetFile 5 None 1; OMetadata 5 None 7; OFree 6; OFree 7;
   OGetGridFs 1 false false; OGridfs (Some 8); ORead 9 0 false 0; ODeleteGridfs 9; OCollectionNames 0 true;
   OGetDatabase 1; ODatabase 10; ODbCollectionNames 11 false; ODeleteDatabase 11; ODeleteGridfs 5].

Lemma always_cons (P : world -> driver -> op -> Prop) w d o t : P w d o -> (forall w' d', step w o d = Ok (w', d') -> always P w' d' t) -> always P w d (o :: t).
Proof. intros A B. split; assumption. Qed.
Ltac calls_by tac := repeat match goal with
  | |- always _ _ _ [] => exact Logic.I
  | |- always _ _ _ (_ :: _) => apply always_cons;
      [tac|let w := fresh in let d := fresh in let E := fresh in intros w d E; vm_compute in E; injection E as <- <-]
  end.
Ltac calls := calls_by ltac:(cbn; repeat split; auto; try discriminate; try (intros; vm_compute; reflexivity); try (intros [? ?]; discriminate); try (left; reflexivity); try (right; eauto 8; fail)).

Example C131_ex : always careful [] start session /\ always tidy [] start session
  /\ exists d, run [] session start = Ok ([Some (SClient (Some 3)); Some (SClient (Some 7)); None; None; None; None; None; None; None; None; None; None], d)
     /\ d_live d = [(7, KClient); (3, KClient)].
Proof.
  split; [unfold session; calls|]. split.
  - unfold session. calls_by ltac:(intros K; cbn in K; firstorder (discriminate || lia)).
  - eexists. split; vm_compute; reflexivity.
Qed.

(** C132. The raster tool with MongoDB, whatever the driver answers: all calls
    return, and in the end nothing is left but one buffer for every file that was
    found and could not be read. *)
Theorem C132_tool host a1 a2 mids : IsIpAddress host = true -> Forall reads_or_writes mids ->
  exists n lost, run [] (OInit host true :: OGridFs 0 a1 a2 :: mids ++ [ODeleteGridfs 1; ODestroy 0; ODeleteClient 0]) start
    = Ok ([None; None], mkDriver n lost After)
    /\ map snd lost = repeat KBuffer (if a1 || a2 then length (filter fails mids) else 0).
Proof. exact (tool_ok host a1 a2 mids). Qed.
Print Assumptions C132_tool.

(** When no client can be made, Init returns nullptr and leaves nothing. *)
Theorem C132_unreachable host w n l ph : ph <> After ->
  step w (OInit host false) (mkDriver n l ph) = Ok (w, mkDriver (S n) l Running).
Proof. intros P. cbn [step]. unfold bind at 1. rewrite (InitClient_none n l host ph P). reflexivity. Qed.
Print Assumptions C132_unreachable.

(** [GridFs] always returns an object: without a bucket readings and writings do
    nothing, and they say so by their result only. *)
Theorem C132_no_bucket w n l b i : at_ w i = Some (SClient (Some b)) -> alive (mkDriver n l Running) b KClient ->
  step w (OGridFs i false false) (mkDriver n l Running) = Ok (add w (SGridfs None), mkDriver (S n) l Running)
  /\ (forall k1 ok k2 m, ReadGridFsFile k1 ok k2 None (mkDriver m l Running) = Ok (tt, mkDriver m l Running))
  /\ (forall t k m, exists m', WriteStreamDataAsGridfs t k None (mkDriver m l Running) = Ok (false, mkDriver m' l Running)).
Proof.
  intros A L. apply is_live_iff in L. cbn in L. split; [|split].
  - cbn [step]. rewrite A. unfold bind at 1. rewrite (GetGridFs_none n l b L). reflexivity.
  - intros. reflexivity.
  - intros t k m. exists (S m). unfold WriteStreamDataAsGridfs. cbn [RemoveFile bucket]. exec. cbn. rewrite ?Nat.eqb_refl. reflexivity.
Qed.
Print Assumptions C132_no_bucket.

Example C132_ex : exists n, run [] (OInit localhost true :: OGridFs 0 false true
    :: [ORead 1 0 true 0; ORead 1 2 false 0; ORead 1 5 false 0; OWrite 1 3 1; ORead 1 4 false 0] ++ [ODeleteGridfs 1; ODestroy 0; ODeleteClient 0]) start
  = Ok ([None; None], mkDriver n [(28, KBuffer); (15, KBuffer)] After).
Proof. eexists. vm_compute. reflexivity. Qed.

(** C133. What a leaking call of a careful program leaves behind stays for ever:
    however the program goes on, the object is alive and no place holds it. *)
Theorem C133_lost_refuted h o h' : always careful [] start (h ++ o :: h') ->
  (forall w d, run [] h start = Ok (w, d) -> leaks w d o) ->
  exists w d b k, run [] (h ++ o :: h') start = Ok (w, d) /\ alive d b k /\ ~ held w b k.
Proof.
  intros C K. destruct (always_app careful h (o :: h') [] start C) as [C1 C2].
  destruct (run_inv false [] h [] start (inv_start false) C1 ltac:(discriminate)) as (w & d & E & I).
  specialize (C2 w d E). cbn [always] in C2. destruct C2 as [C2 C3].
  destruct (step_leak false [] w d o I C2 (K w d E)) as (w1 & d1 & b & k & E1 & I1).
  destruct (run_inv false _ h' w1 d1 I1 (C3 w1 d1 E1) ltac:(discriminate)) as (w2 & d2 & E2 & I2).
  exists w2, d2, b, k. split.
  - rewrite run_app. unfold bind at 1. rewrite E. cbn [obind fst snd run]. unfold bind at 1. rewrite E1. exact E2.
  - destruct (i_ghost _ _ _ _ I2 b k (or_introl eq_refl)) as [L N]. split; [exact L|].
    intros (i & s & A & H). exact (N i s k A H).
Qed.
Print Assumptions C133_lost_refuted.

(** Counting records and deleting the client, as the class offers it. *)
Example C133_ex :
  let h := [OInit localhost true; OGetCollection 0 true; OCollection 1] in
  let h' := [OCount 2; ODeleteCollection 2; ODestroy 0; ODeleteClient 0] in
  always careful [] start (h ++ OCount 2 :: h')
  /\ (forall w d, run [] h start = Ok (w, d) -> leaks w d (OCount 2))
  /\ exists n, run [] (h ++ OCount 2 :: h') start = Ok ([None; None; None], mkDriver n [(7, KBson); (6, KBson)] After).
Proof.
  cbn [app]. split; [calls|]. split.
  - intros w d E. vm_compute in E. injection E as <- <-. cbn. eauto.
  - eexists. vm_compute. reflexivity.
Qed.

(** C134. None of the rules can be dropped: after a careful program, a call that is
    not careful, on an object the program has, is undefined, or aborts as the
    address is not numeric; only copying goes unnoticed. *)
Theorem C134_rules h o w d : always careful [] start h -> run [] h start = Ok (w, d) ->
  effective w o -> ~ careful w d o -> ~ copies o ->
  step w o d = UB \/ (exists host, o = OInit host true) /\ step w o d = Throw.
Proof.
  intros C R E N K. destruct (run_inv false [] h [] start (inv_start false) C ltac:(discriminate)) as (w' & d' & R' & I).
  rewrite R in R'. injection R' as <- <-. exact (step_careless false [] w d o I E N K).
Qed.
Print Assumptions C134_rules.

(** A copy and its original cannot both be deleted while the driver runs. *)
Theorem C134_copy h w n l i b : always careful [] start h -> run [] h start = Ok (w, mkDriver n l Running) ->
  (at_ w i = Some (SGridfs (Some b)) -> run w [OCopyGridfs i; ODeleteGridfs i; ODeleteGridfs (length w)] (mkDriver n l Running) = UB)
  /\ (at_ w i = Some (SCollection (Some b)) -> run w [OCopyCollection i; ODeleteCollection i; ODeleteCollection (length w)] (mkDriver n l Running) = UB).
Proof.
  intros C R. destruct (run_inv false [] h [] start (inv_start false) C ltac:(discriminate)) as (w' & d' & R' & I).
  rewrite R in R'. injection R' as <- <-.
  assert (Gone : forall k, is_live (drop l b) b k = false).
  { intros k. destruct (is_live (drop l b) b k) eqn:L; [|reflexivity]. apply is_live_iff in L.
    apply (drop_in l b b k (i_nodup _ _ _ _ I)) in L. destruct L as [_ L]. destruct (L eq_refl). }
  split; intros A.
  - pose proof (slot_live _ _ w n l Running i _ KGridfs b I ltac:(discriminate) A eq_refl) as L.
    assert (B : at_ (add w (SGridfs (Some b))) i = Some (SGridfs (Some b))).
    { rewrite at_add. destruct (i =? length w); [reflexivity|exact A]. }
    assert (B' : at_ (clear (add w (SGridfs (Some b))) i) (length w) = Some (SGridfs (Some b))).
    { rewrite at_clear, at_add, Nat.eqb_refl. apply at_length in A. destruct (Nat.eqb_spec (length w) i); [lia|reflexivity]. }
    cbn [run]. unfold bind at 1. cbn [step]. rewrite A. cbn [obind fst snd ret]. unfold bind at 1. cbn [step]. rewrite B.
    unfold bind at 1. rewrite (DeleteGridfs_ok n l b L). cbn [obind fst snd ret]. unfold bind at 1. cbn [step]. rewrite B'.
    unfold DeleteGridfs. exec. rewrite Gone. reflexivity.
  - pose proof (slot_live _ _ w n l Running i _ KCollection b I ltac:(discriminate) A eq_refl) as L.
    assert (B : at_ (add w (SCollection (Some b))) i = Some (SCollection (Some b))).
    { rewrite at_add. destruct (i =? length w); [reflexivity|exact A]. }
    assert (B' : at_ (clear (add w (SCollection (Some b))) i) (length w) = Some (SCollection (Some b))).
    { rewrite at_clear, at_add, Nat.eqb_refl. apply at_length in A. destruct (Nat.eqb_spec (length w) i); [lia|reflexivity]. }
    cbn [run]. unfold bind at 1. cbn [step]. rewrite A. cbn [obind fst snd ret]. unfold bind at 1. cbn [step]. rewrite B.
    unfold bind at 1. rewrite (DeleteCollection_ok n l b L). cbn [obind fst snd ret]. unfold bind at 1. cbn [step]. rewrite B'.
    unfold DeleteCollection. exec. rewrite Gone. reflexivity.
Qed.
Print Assumptions C134_copy.

(** Destroying one client ends the driver: no other client can do anything, and
    none can be made. *)
Theorem C134_shut_refuted h w n l i j p q host ok : always careful [] start h -> run [] h start = Ok (w, mkDriver n l Running) ->
  at_ w i = Some (SClient p) -> at_ w j = Some (SClient q) ->
  exists d, step w (ODestroy i) (mkDriver n l Running) = Ok (w, d)
  /\ step w (OInit host ok) d = UB /\ step w (ODestroy j) d = UB /\ step w (OGetDatabase j) d = UB
  /\ (forall has, step w (OGetCollection j has) d = UB) /\ (forall a1 a2, step w (OGridFs j a1 a2) d = UB)
  /\ (forall b, step w (ODatabaseNames j b) d = UB).
Proof.
  intros C R A B. destruct (run_inv false [] h [] start (inv_start false) C ltac:(discriminate)) as (w' & d' & R' & I).
  rewrite R in R'. injection R' as <- <-. destruct p as [b|]; [|destruct (proj1 (i_null _ _ _ _ I i _ KClient A eq_refl) eq_refl)].
  pose proof (slot_live _ _ w n l Running i _ KClient b I ltac:(discriminate) A eq_refl) as L.
  eexists. split; [cbn [step]; rewrite A; unfold bind at 1; rewrite (Destroy_ok n l b L); reflexivity|].
  cbn [step]. rewrite B. repeat split; try (destruct ok; reflexivity); try (destruct q; reflexivity); intros; reflexivity.
Qed.
Print Assumptions C134_shut_refuted.

(** A host name, which Init's comment asks for, is no address: with assertions the
    program aborts. *)
Definition dbserver : bytes := str "db.lan"%string.
Example C134_ex : let w := [Some (SClient (Some 3))] in let d := mkDriver 4 [(3, KClient)] Running in
  run [] [OInit localhost true] start = Ok (w, d)
  /\ step w (OInit dbserver true) d = Throw /\ step w (OFileNames 0 false false 3) d = UB
  /\ effective w (OInit dbserver true) /\ ~ careful w d (OInit dbserver true)
  /\ run w [OGetCollection 0 false; OCollection 1; OQuery 2] d = UB
  /\ run w [OGridFs 0 false false; OGfsFileNames 1 None 0] d = UB
  /\ run w [OGetGridFs 0 true true; OGridfs (Some 1); OCopyGridfs 2; ODeleteGridfs 2; ODeleteGridfs 3] d = UB.
Proof.
  cbn zeta. repeat split; try (vm_compute; reflexivity). intros [_ H]. specialize (H eq_refl). vm_compute in H. discriminate.
Qed.
