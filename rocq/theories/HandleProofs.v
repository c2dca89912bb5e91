(** What each call does to the live objects (HandleModel.v). *)
From Coq Require Import List Bool Arith Lia.
From Verif Require Import Base BasicModel HandleModel HandleSpec.
Import ListNotations.

Lemma eqb_S n : Nat.eqb n (S n) = false.
Proof. apply Nat.eqb_neq. lia. Qed.
Lemma eqb_S' n : Nat.eqb (S n) n = false.
Proof. apply Nat.eqb_neq. lia. Qed.
Lemma eqb_SS n : Nat.eqb n (S (S n)) = false.
Proof. apply Nat.eqb_neq. lia. Qed.

(** All the rewriting a straight-line function needs. *)
Ltac exec := repeat (unfold bind, ret, call, make, use, kill in *; cbn [obind fst snd d_next d_live d_phase is_live drop code andb orb negb Nat.eqb] in *;
  rewrite ?Nat.eqb_refl, ?eqb_S, ?eqb_S', ?eqb_SS, ?orb_true_r in *; cbn [andb orb] in *).

Section Calls.
Variables (n : nat) (l : list (nat * kind)).
Let d := mkDriver n l Running.

Lemma NewClient_ok host : IsIpAddress host = true -> NewClient host d = Ok (Some (S n), mkDriver (S (S n)) ((S n, KClient) :: l) Running).
Proof. intros H. unfold NewClient, d. rewrite H. cbn [negb]. exec. reflexivity. Qed.

Lemma InitClient_ok host ph : ph <> After -> IsIpAddress host = true ->
  InitClient host true (mkDriver n l ph) = Ok (Some (Some (S (S (S n)))), mkDriver (S (S (S (S n)))) ((S (S (S n)), KClient) :: l) Running).
Proof.
  intros P H. unfold InitClient, NewClient. rewrite H. cbn [negb]. destruct ph; [| |destruct (P eq_refl)]; exec; reflexivity.
Qed.
Lemma InitClient_none host ph : ph <> After -> InitClient host false (mkDriver n l ph) = Ok (None, mkDriver (S n) l Running).
Proof. intros P. unfold InitClient. destruct ph; [| |destruct (P eq_refl)]; exec; reflexivity. Qed.

Variable b : nat.

Lemma Destroy_ok : is_live l b KClient = true -> Destroy (Some b) d = Ok (tt, mkDriver n (drop l b) After).
Proof. intros H. unfold Destroy, d. exec. rewrite ?H, ?orb_true_r. exec. reflexivity. Qed.

Lemma GetDatabaseNames_ok ok : is_live l b KClient = true -> exists n', n <= n' /\ GetDatabaseNames ok (Some b) d = Ok (tt, mkDriver n' l Running).
Proof. intros H. unfold GetDatabaseNames, d. exec. rewrite ?H, ?orb_true_r. destruct ok; exec; (eexists; split; [|reflexivity]; lia). Qed.

Lemma GetDatabase_ok : is_live l b KClient = true -> GetDatabase (Some b) d = Ok (Some n, mkDriver (S n) ((n, KDatabase) :: l) Running).
Proof. intros H. unfold GetDatabase, d. exec. rewrite ?H, ?orb_true_r. exec. reflexivity. Qed.

Lemma GetCollection_ok : is_live l b KClient = true -> GetCollection true (Some b) d = Ok (Some (S n), mkDriver (S (S n)) ((S n, KCollection) :: l) Running).
Proof. intros H. unfold GetCollection, GetDatabase, d. exec. rewrite ?H, ?orb_true_r. exec. rewrite ?H, ?orb_true_r. exec. reflexivity. Qed.

Lemma GetCollection_none : is_live l b KClient = true -> GetCollection false (Some b) d = Ok (None, mkDriver (S n) ((n, KDatabase) :: l) Running).
Proof. intros H. unfold GetCollection, GetDatabase, d. exec. rewrite ?H, ?orb_true_r. exec. reflexivity. Qed.

Lemma GetGridFs_ok a1 a2 : is_live l b KClient = true -> a1 || a2 = true ->
  exists g n', n <= g < n' /\ GetGridFs a1 a2 (Some b) d = Ok (Some g, mkDriver n' ((g, KGridfs) :: l) Running).
Proof.
  intros H A. unfold GetGridFs, d. exec. rewrite ?H, ?orb_true_r. destruct a1; exec.
  - exists n, (S n). split; [lia|reflexivity].
  - rewrite H. exec. destruct a2; [|discriminate]. exec. exists (S n), (S (S n)). split; [lia|reflexivity].
Qed.
Lemma GetGridFs_none : is_live l b KClient = true -> GetGridFs false false (Some b) d = Ok (None, mkDriver (S n) l Running).
Proof. intros H. unfold GetGridFs, d. exec. rewrite ?H, ?orb_true_r. exec. rewrite ?H, ?orb_true_r. exec. reflexivity. Qed.

Lemma WrapDatabase_ok : is_live l b KDatabase = true -> WrapDatabase (Some b) d = Ok (tt, d).
Proof. intros H. unfold WrapDatabase, d. exec. rewrite ?H, ?orb_true_r. reflexivity. Qed.
Lemma DeleteDatabase_ok : is_live l b KDatabase = true -> DeleteDatabase (Some b) d = Ok (tt, mkDriver n (drop l b) Running).
Proof. intros H. unfold DeleteDatabase, d. exec. rewrite ?H, ?orb_true_r. reflexivity. Qed.
Lemma DbCollectionNames_ok ok : is_live l b KDatabase = true -> exists n', n <= n' /\ DbCollectionNames ok (Some b) d = Ok (tt, mkDriver n' l Running).
Proof. intros H. unfold DbCollectionNames, d. exec. rewrite ?H, ?orb_true_r. destruct ok; exec; (eexists; split; [|reflexivity]; lia). Qed.
Lemma ClientCollectionNames_ok ok : is_live l b KClient = true -> exists n', n <= n' /\ ClientCollectionNames ok (Some b) d = Ok (tt, mkDriver n' l Running).
Proof.
  intros H. unfold ClientCollectionNames, GetDatabase, WrapDatabase, DbCollectionNames, DeleteDatabase, d. exec. rewrite ?H, ?orb_true_r. exec.
  destruct ok; exec; (eexists; split; [|reflexivity]; lia).
Qed.

Lemma DeleteCollection_ok : is_live l b KCollection = true -> DeleteCollection (Some b) d = Ok (tt, mkDriver n (drop l b) Running).
Proof. intros H. unfold DeleteCollection, d. exec. rewrite ?H, ?orb_true_r. reflexivity. Qed.
Lemma DeleteCollection_null : DeleteCollection None d = Ok (tt, d).
Proof. reflexivity. Qed.
Lemma ExecuteQuery_ok : is_live l b KCollection = true -> ExecuteQuery (Some b) d = Ok (Some n, mkDriver (S n) ((n, KCursor) :: l) Running).
Proof. intros H. unfold ExecuteQuery, d. exec. rewrite ?H, ?orb_true_r. exec. reflexivity. Qed.
Lemma QueryRecordsCount_ok : is_live l b KCollection = true -> QueryRecordsCount (Some b) d = Ok (tt, mkDriver (S n) ((n, KBson) :: l) Running).
Proof. intros H. unfold QueryRecordsCount, d. exec. rewrite H, orb_true_r. reflexivity. Qed.
Lemma DeleteGridfs_ok : is_live l b KGridfs = true -> DeleteGridfs (Some b) d = Ok (tt, mkDriver n (drop l b) Running).
Proof. intros H. unfold DeleteGridfs, d. exec. rewrite ?H, ?orb_true_r. reflexivity. Qed.
End Calls.

Lemma attempts_ok t k n l b : is_live l b KGridfs = true ->
  attempts t k (Some b) (mkDriver n l Running) =
  if k <? t then Ok (Some n, mkDriver (S n) ((n, KFile) :: l) Running) else Ok (None, mkDriver n l Running).
Proof.
  intros H. revert k. induction t as [|t IH]; intros k; cbn [attempts].
  - reflexivity.
  - unfold bind at 1, call. cbn [d_phase obind fst snd]. unfold bind at 1, use. cbn [d_live]. rewrite H. cbn [obind fst snd].
    destruct k as [|k]; [reflexivity|]. rewrite IH. reflexivity.
Qed.

Lemma GetFile_ok k n l own arg b : bucket own arg = Some b -> is_live l b KGridfs = true ->
  GetFile k own arg (mkDriver n l Running) =
  if k <? 5 then Ok (Some (S n), mkDriver (S (S n)) ((S n, KFile) :: l) Running) else Ok (None, mkDriver (S n) l Running).
Proof.
  intros B H. unfold GetFile. rewrite B. unfold bind at 1. unfold make. cbn [obind fst snd d_next d_live d_phase].
  unfold bind at 1. rewrite attempts_ok by (cbn [is_live]; rewrite H; apply orb_true_r).
  destruct (k <? 5); exec; reflexivity.
Qed.

Lemma bucket_again own arg b : bucket own arg = Some b -> bucket own (Some b) = Some b.
Proof. unfold bucket. destruct own; auto. Qed.

Lemma times_ok t n l b : exists n', n <= n' /\
  times t (bind (use KList (Some b)) (fun _ => bind (make KFile) (fun f => bind (use KFile f) (fun _ => kill KFile f))))
    (mkDriver n ((b, KList) :: l) Running) = Ok (tt, mkDriver n' ((b, KList) :: l) Running).
Proof.
  revert n. induction t as [|t IH]; intros n; cbn [times].
  - exists n. split; [lia|reflexivity].
  - destruct (IH (S n)) as (n' & L & E). exists n'. split; [lia|]. rewrite <- E.
    unfold bind at 1 2. unfold use at 1. cbn [d_live is_live]. rewrite Nat.eqb_refl. cbn [code Nat.eqb andb orb obind fst snd].
    unfold bind at 1. unfold make. cbn [obind fst snd d_next d_live d_phase]. unfold bind at 1. unfold use at 1.
    cbn [d_live is_live]. rewrite Nat.eqb_refl. cbn [code Nat.eqb andb orb obind fst snd].
    unfold kill. cbn [d_live is_live drop d_next d_phase]. rewrite Nat.eqb_refl. cbn [code Nat.eqb andb orb obind fst snd]. reflexivity.
Qed.

Lemma RemoveFile_ok t n l own arg b : bucket own arg = Some b -> is_live l b KGridfs = true ->
  exists n', n <= n' /\ RemoveFile t own arg (mkDriver n l Running) = Ok (true, mkDriver n' l Running).
Proof.
  intros B H. unfold RemoveFile. rewrite B.
  destruct (times_ok t (S (S n)) ((n, KBson) :: l) (S n)) as (n' & L & E). exists n'. split; [lia|].
  unfold bind at 1. unfold make at 1. cbn [obind fst snd d_next d_live d_phase].
  unfold bind at 1. unfold call. cbn [obind fst snd d_next d_live d_phase].
  unfold bind at 1. unfold use at 1. cbn [d_live is_live]. rewrite H, orb_true_r. cbn [obind fst snd].
  unfold bind at 1. unfold make at 1. cbn [obind fst snd d_next d_live d_phase].
  unfold bind at 1. rewrite E. exec.
  destruct (Nat.eqb_spec n (S n)); [lia|]. exec. reflexivity.
Qed.

Lemma GetFileNames_ok t n l own arg b : bucket own arg = Some b -> is_live l b KGridfs = true ->
  exists n', n < n' /\ GetFileNames t own arg (mkDriver n l Running) = Ok (tt, mkDriver n' ((n, KBson) :: l) Running).
Proof.
  intros B H. unfold GetFileNames. rewrite B.
  destruct (times_ok t (S (S n)) ((n, KBson) :: l) (S n)) as (n' & L & E). exists n'. split; [lia|].
  unfold bind at 1. unfold make at 1. cbn [obind fst snd d_next d_live d_phase].
  unfold bind at 1. unfold call. cbn [obind fst snd d_next d_live d_phase].
  unfold bind at 1. unfold use at 1. cbn [d_live is_live]. rewrite H, orb_true_r. cbn [obind fst snd].
  unfold bind at 1. unfold make at 1. cbn [obind fst snd d_next d_live d_phase].
  unfold bind at 1. rewrite E. exec. reflexivity.
Qed.

Lemma GetFileMetadata_ok k n l own arg b : bucket own arg = Some b -> is_live l b KGridfs = true ->
  GetFileMetadata k own arg (mkDriver n l Running) =
  if k <? 5 then Ok (Some (S (S n)), mkDriver (S (S (S n))) ((S (S n), KBson) :: l) Running) else Ok (None, mkDriver (S n) l Running).
Proof.
  intros B H. unfold GetFileMetadata. rewrite B. unfold bind at 1.
  rewrite (GetFile_ok k n l own (Some b) b (bucket_again _ _ _ B) H). destruct (k <? 5); exec; reflexivity.
Qed.

Lemma GetStreamData_ok k ok n l own arg b : bucket own arg = Some b -> is_live l b KGridfs = true ->
  exists n', n + 3 <= n' /\ GetStreamData k ok own arg (mkDriver n l Running) =
  if k <? 5 then Ok ((ok, Some (S (S n))), mkDriver n' ((S (S n), KBuffer) :: l) Running) else Ok ((false, None), mkDriver (S n) l Running).
Proof.
  intros B H. unfold GetStreamData. rewrite B. exists (S (S (S (S n)))). split; [lia|]. unfold bind at 1.
  rewrite (GetFile_ok k n l own (Some b) b (bucket_again _ _ _ B) H). destruct (k <? 5); [|exec; reflexivity].
  exec. destruct (Nat.eqb_spec (S n) (S (S (S n)))); [lia|]. exec. reflexivity.
Qed.

Lemma WriteStreamData_ok ok n l own b m : bucket own None = Some b -> is_live l b KGridfs = true -> is_live l m KBson = true ->
  WriteStreamData ok (Some m) own None (mkDriver n l Running) = Ok (ok, mkDriver (S n) l Running).
Proof. intros B H M. unfold WriteStreamData. rewrite B. exec. rewrite H. exec. rewrite M. exec. reflexivity. Qed.

(** What a failing reading leaves. *)
Definition left_over (k1 : nat) (ok : bool) (n : nat) : list (nat * kind) :=
  if negb ok && (k1 <? 5) then [(S (S n), KBuffer)] else [].

Lemma ReadGridFsFile_ok k1 ok k2 n l own b : own = Some b -> is_live l b KGridfs = true ->
  exists n', n + length (left_over k1 ok n) * 3 <= n' /\ ReadGridFsFile k1 ok k2 own (mkDriver n l Running) = Ok (tt, mkDriver n' (left_over k1 ok n ++ l) Running).
Proof.
  intros -> H. unfold ReadGridFsFile, left_over.
  destruct (GetStreamData_ok k1 ok n l (Some b) None b eq_refl H) as (n' & L & E). unfold bind at 1. rewrite E. clear E.
  destruct (k1 <? 5).
  - destruct ok; cbn [negb andb app length].
    + cbn [obind fst snd]. unfold bind at 1.
      rewrite (GetFileMetadata_ok k2 n' ((S (S n), KBuffer) :: l) (Some b) None b eq_refl) by (cbn [is_live]; rewrite H; apply orb_true_r).
      destruct (k2 <? 5); exec.
      * destruct (Nat.eqb_spec (S (S n)) (S (S n'))); [lia|]. exec. eexists. split; [|reflexivity]. lia.
      * eexists. split; [|reflexivity]. lia.
    + exists n'. split; [lia|reflexivity].
  - rewrite andb_false_r. cbn [app length]. exists (S n). split; [lia|reflexivity].
Qed.

Lemma write_attempts_ok t k n l b m : is_live l b KGridfs = true -> is_live l m KBson = true ->
  exists n' r, n <= n' /\ write_attempts t k (Some m) (Some b) (mkDriver n l Running) = Ok (r, mkDriver n' l Running).
Proof.
  intros H M. revert k n. induction t as [|t IH]; intros k n; cbn [write_attempts].
  - exists n, false. split; [lia|reflexivity].
  - unfold bind. rewrite (WriteStreamData_ok _ n l (Some b) b m eq_refl H M). cbn [obind fst snd].
    destruct k as [|k]; [exists (S n), true; split; [lia|reflexivity]|].
    destruct (IH k (S n)) as (n' & r & L & E). exists n', r. split; [lia|]. exact E.
Qed.

Lemma WriteStreamDataAsGridfs_ok t k n l b : is_live l b KGridfs = true ->
  exists n' r, n <= n' /\ WriteStreamDataAsGridfs t k (Some b) (mkDriver n l Running) = Ok (r, mkDriver n' l Running).
Proof.
  intros H. unfold WriteStreamDataAsGridfs. destruct (RemoveFile_ok t n l (Some b) None b eq_refl H) as (n1 & L1 & E1).
  unfold bind at 1. rewrite E1. cbn [obind fst snd]. unfold bind at 1. unfold make. cbn [obind fst snd d_next d_live d_phase].
  destruct (write_attempts_ok 4 k (S n1) ((n1, KBson) :: l) b n1) as (n2 & r & L2 & E2).
  - cbn [is_live]. rewrite H. apply orb_true_r.
  - cbn [is_live]. rewrite Nat.eqb_refl. reflexivity.
  - unfold bind at 1. rewrite E2. exec. exists n2, r. split; [lia|reflexivity].
Qed.

Lemma ClientFileNames_ok a1 a2 t n l b : is_live l b KClient = true -> a1 || a2 = true ->
  (forall x k, In (x, k) l -> x < n) ->
  exists x n', n <= x < n' /\ ClientFileNames a1 a2 t (Some b) (mkDriver n l Running) = Ok (tt, mkDriver n' ((x, KBson) :: l) Running).
Proof.
  intros H A F. unfold ClientFileNames. destruct (GetGridFs_ok n l b a1 a2 H A) as (g & n1 & L1 & E1).
  unfold bind at 1. rewrite E1. cbn [obind fst snd].
  destruct (GetFileNames_ok t n1 ((g, KGridfs) :: l) (Some g) None g eq_refl) as (n2 & L2 & E2).
  { cbn [is_live]. rewrite Nat.eqb_refl. reflexivity. }
  unfold bind at 1. rewrite E2. cbn [obind fst snd]. unfold DeleteGridfs. exec.
  destruct (Nat.eqb_spec g n1); [lia|]. exec. exists n1, n2. split; [lia|reflexivity].
Qed.
