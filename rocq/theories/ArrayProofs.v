(** Lemmas about the array allocation helpers. *)
From Coq Require Import ZArith List Bool Lia Permutation.
From Verif Require Import Base RasterModel RasterSpec ListLib ArrayModel.
Import ListNotations.
Open Scope Z_scope.
Open Scope outcome_scope.

Section P.
Context {T : Type}.
Implicit Types h : heap T.

Lemma block_some h b c : block h b = Ok c <-> nth_error h b = Some (Some c).
Proof.
  unfold block. destruct (nth_error h b) as [[c'|]|]; split; intros H; try discriminate; try congruence;
  inversion H; subst; auto.
Qed.

Lemma nth_lt {A} (l : list A) n x : nth_error l n = Some x -> (n < length l)%nat.
Proof. intros H. apply nth_error_Some. congruence. Qed.

Lemma nth_upd_same {A} (l : list A) n x : (n < length l)%nat -> nth_error (upd l n x) n = Some x.
Proof. intros H. rewrite upd_nth, Nat.eqb_refl. destruct (Nat.ltb_spec n (length l)); [auto|lia]. Qed.
Lemma nth_upd_other {A} (l : list A) n m x : m <> n -> nth_error (upd l n x) m = nth_error l m.
Proof. intros H. rewrite upd_nth. destruct (Nat.eqb_spec m n); [congruence|auto]. Qed.

Lemma store_ok h b c i o x : nth_error h b = Some (Some c) -> 0 <= o + i < Z.of_nat (length c) ->
  store h (Some (b, o)) i x = Ok (upd h b (Some (upd c (Z.to_nat (o + i)) x))).
Proof.
  intros H Hi. unfold store. rewrite (proj2 (block_some _ _ _) H). cbn [obind]. rewrite aset_ok by auto. auto.
Qed.

Lemma load_ok h b c i o x : nth_error h b = Some (Some c) -> 0 <= o + i ->
  nth_error c (Z.to_nat (o + i)) = Some x -> load h (Some (b, o)) i = Ok x.
Proof.
  intros H Hi Hx. unfold load. rewrite (proj2 (block_some _ _ _) H). cbn [obind]. apply aget_ok; auto.
Qed.

(** A loop storing [vals] into block [b], in any order. *)
Lemma fill_loop (step : heap T -> nat -> outcome (heap T)) b vals :
  forall h ord d0,
  nth_error h b = Some (Some d0) -> length d0 = length vals ->
  (forall d i v, length d = length vals -> nth_error vals i = Some v ->
     step (upd h b (Some d)) i = store (upd h b (Some d)) (Some (b, 0)) (Z.of_nat i) v) ->
  Permutation ord (seq 0 (length vals)) ->
  ofold step ord h = Ok (upd h b (Some vals)).
Proof.
  intros h ord d0 Hb HL Hs HP.
  assert (HI : forall i, In i ord -> (i < length vals)%nat).
  { intros i Hi. apply (Permutation_in _ HP) in Hi. apply in_seq in Hi. lia. }
  assert (G : forall ord d, length d = length vals -> (forall i, In i ord -> (i < length vals)%nat) ->
    ofold step ord (upd h b (Some d)) =
    Ok (upd h b (Some (fold_left (fun d i => match nth_error vals i with Some v => upd d i v | None => d end) ord d)))).
  { clear ord HP HI. induction ord as [|i ord IH]; intros d Hd HI; cbn [ofold fold_left]; auto.
    assert (Hi : (i < length vals)%nat) by (apply HI; left; auto).
    destruct (nth_error vals i) as [v|] eqn:E; [|apply nth_error_None in E; lia].
    rewrite (Hs d i v) by auto.
    rewrite (store_ok _ _ d) by (first [apply nth_upd_same; eapply nth_lt; eauto|lia]).
    cbn [obind]. rewrite upd_repeat_map.
    replace (Z.to_nat (0 + Z.of_nat i)) with i by lia.
    rewrite IH; auto; [rewrite upd_length; auto|intros; apply HI; right; auto]. }
  rewrite <- (upd_same h b (Some d0) Hb) at 1. rewrite G by auto.
  rewrite par_fill_all by auto. auto.
Qed.

Lemma Permutation_schedule n ord (vals : list (cell T)) : schedule n ord -> Z.of_nat (length vals) = n ->
  Permutation ord (seq 0 (length vals)).
Proof. unfold schedule. intros H <-. rewrite Nat2Z.id in H. auto. Qed.

Lemma nth_snoc {A} (l : list A) x : nth_error (l ++ [x]) (length l) = Some x.
Proof. rewrite nth_error_app2 by lia. rewrite Nat.sub_diag. auto. Qed.

Lemma upd_snoc {A} (l : list A) x y : upd (l ++ [x]) (length l) y = l ++ [y].
Proof. induction l; cbn; auto. f_equal; auto. Qed.

(** ** 1D *)
Theorem Init1D_ok h row v ord : 0 < row -> schedule row ord ->
  Initialize1DArray true ord h None row v =
  Ok (h ++ [Some (repeat (CVal v) (Z.to_nat row))], Some (length h, 0), true).
Proof.
  intros Hr HS. unfold Initialize1DArray, alloc. destruct (Z.leb_spec row 0); [lia|].
  destruct (Z.leb_spec 0 row); [|lia]. cbn [andb].
  rewrite (fill_loop _ (length h) (repeat (CVal v) (Z.to_nat row)) _ ord (repeat CUndef (Z.to_nat row))).
  - cbn [obind]. rewrite upd_snoc. auto.
  - apply nth_snoc.
  - rewrite !repeat_length; auto.
  - intros d i x Hd Hx. apply nth_error_In, repeat_spec in Hx. subst. auto.
  - eapply Permutation_schedule; eauto. rewrite repeat_length. lia.
Qed.

Theorem Init1D_no h data row v ord ok : data <> None \/ row <= 0 \/ ok = false ->
  Initialize1DArray ok ord h data row v = Ok (h, data, false).
Proof.
  intros H. unfold Initialize1DArray, alloc. destruct data; auto.
  destruct (Z.leb_spec row 0); auto. destruct H as [H|[H|H]]; [congruence|lia|subst; auto].
Qed.

Theorem Init1DFrom_ok (cast : T -> T) h row b o xs ord : 0 <= row -> schedule row ord -> 0 <= o ->
  (exists c, nth_error h b = Some (Some c) /\
     forall i x, nth_error xs i = Some x -> nth_error c (Z.to_nat o + i) = Some (CVal x)) ->
  Z.of_nat (length xs) = row ->
  Initialize1DArrayFrom cast true ord h None row (Some (b, o)) =
  Ok (h ++ [Some (map (fun x => CVal (cast x)) xs)], Some (length h, 0), true).
Proof.
  intros Hr HS Ho (c & Hc & Hx) HL. unfold Initialize1DArrayFrom, alloc.
  destruct (Z.leb_spec 0 row); [|lia]. cbn [andb].
  rewrite (fill_loop _ (length h) (map (fun x => CVal (cast x)) xs) _ ord (repeat CUndef (Z.to_nat row))).
  - cbn [obind]. rewrite upd_snoc. auto.
  - apply nth_snoc.
  - rewrite repeat_length, map_length. lia.
  - intros d i v Hd Hv. rewrite nth_error_map in Hv. destruct (nth_error xs i) as [x|] eqn:E; [|discriminate].
    cbn in Hv. injection Hv as <-. unfold load_val.
    rewrite (load_ok _ b c _ _ (CVal x)).
    + cbn [obind]. auto.
    + rewrite nth_upd_other; [|pose proof (nth_lt _ _ _ Hc); lia]. rewrite nth_error_app1; auto. eapply nth_lt; eauto.
    + lia.
    + rewrite Z2Nat.inj_add by lia. rewrite Nat2Z.id. auto.
  - eapply Permutation_schedule; eauto. rewrite map_length. lia.
Qed.

Lemma map_rep {A B} (f : A -> B) x n : map f (repeat x n) = repeat (f x) n.
Proof. induction n; cbn; f_equal; auto. Qed.

(** ** 2D *)
(** [p] is a row-pointer array over one block holding the values [M]. *)
Definition mat h (p : pointer) (rows cols : Z) (pb pool : nat) (M : list T) : Prop :=
  p = Some (pb, 0) /\ pb <> pool /\ 0 <= cols /\
  nth_error h pb = Some (Some (map (fun i => CPtr pool (i * cols)) (zseq rows))) /\
  nth_error h pool = Some (Some (map CVal M)) /\ Z.of_nat (length M) = rows * cols.

Lemma mat_row h p rows cols pb pool M i : mat h p rows cols pb pool M -> 0 <= i < rows ->
  load_ptr h p i = Ok (Some (pool, i * cols)).
Proof.
  intros (-> & _ & _ & Hp & _) Hi. unfold load_ptr.
  rewrite (load_ok _ pb _ _ _ (CPtr pool (i * cols)) Hp); auto; try lia.
  rewrite Z.add_0_l, nth_error_map, zseq_nth by lia. auto.
Qed.

Lemma cell_range rows cols i j : 0 <= i < rows -> 0 <= j < cols -> 0 <= i * cols + j < rows * cols.
Proof. nia. Qed.

Lemma mat_read h p rows cols pb pool M i j : mat h p rows cols pb pool M -> 0 <= i < rows -> 0 <= j < cols ->
  exists x, nth_error M (Z.to_nat (i * cols + j)) = Some x /\ read2 h p i j = Ok x.
Proof.
  intros HM Hi Hj. unfold read2. rewrite (mat_row _ _ _ _ _ _ _ _ HM Hi). cbn [obind].
  destruct HM as (_ & _ & _ & _ & HP & HL). pose proof (cell_range _ _ _ _ Hi Hj).
  destruct (nth_error M (Z.to_nat (i * cols + j))) as [x|] eqn:E; [|apply nth_error_None in E; lia].
  exists x. split; auto. unfold load_val. rewrite (load_ok _ _ _ _ _ (CVal x) HP); auto; try lia.
  rewrite nth_error_map, E. auto.
Qed.

Lemma map_upd {A B} (f : A -> B) : forall l n x, map f (upd l n x) = upd (map f l) n (f x).
Proof. induction l; destruct n; cbn; intros; f_equal; auto. Qed.

Lemma mat_write h p rows cols pb pool M i j v : mat h p rows cols pb pool M -> 0 <= i < rows -> 0 <= j < cols ->
  exists h', write2 h p i j v = Ok h' /\ mat h' p rows cols pb pool (upd M (Z.to_nat (i * cols + j)) v) /\
    length h' = length h /\ (forall b, b <> pool -> nth_error h' b = nth_error h b).
Proof.
  intros HM Hi Hj. unfold write2. rewrite (mat_row _ _ _ _ _ _ _ _ HM Hi). cbn [obind].
  destruct HM as (Hp & Hne & Hc & Hpb & HP & HL). pose proof (cell_range _ _ _ _ Hi Hj).
  rewrite (store_ok _ _ _ _ _ _ HP) by (rewrite map_length; lia). eexists; split; [reflexivity|].
  split; [|split; [apply upd_length|intros; apply nth_upd_other; auto]].
  unfold mat. split; auto. split; auto. split; auto. split; [rewrite nth_upd_other; auto|].
  split; [|rewrite upd_length; auto]. rewrite nth_upd_same by (eapply nth_lt; eauto). rewrite map_upd. auto.
Qed.

Theorem Init2D_ok h row col v ord : 0 <= row -> 0 <= col -> schedule (row * col) ord ->
  exists h', Initialize2DArray true true ord h None row col v = Ok (h', Some (length h, 0), true) /\
    mat h' (Some (length h, 0)) row col (length h) (S (length h)) (repeat v (Z.to_nat (row * col))) /\
    length h' = S (S (length h)) /\ (forall b, (b < length h)%nat -> nth_error h' b = nth_error h b).
Proof.
  intros Hr Hc HS. unfold Initialize2DArray, alloc.
  destruct (Z.leb_spec 0 row); [|lia]. destruct (Z.leb_spec 0 (row * col)); [|nia]. cbn [andb].
  set (h1 := h ++ [Some (repeat CUndef (Z.to_nat row))]).
  assert (L1 : length h1 = S (length h)) by (unfold h1; rewrite app_length; cbn; lia).
  rewrite (fill_loop _ (length h1) (repeat (CVal v) (Z.to_nat (row * col))) _ ord (repeat CUndef (Z.to_nat (row * col)))).
  2:{ apply nth_snoc. } 2:{ rewrite !repeat_length; auto. }
  2:{ intros d i x Hd Hx. apply nth_error_In, repeat_spec in Hx. subst. auto. }
  2:{ eapply Permutation_schedule; eauto. rewrite repeat_length. lia. }
  cbn [obind]. rewrite upd_snoc.
  set (h2 := h1 ++ [Some (repeat (CVal v) (Z.to_nat (row * col)))]).
  assert (Hp : nth_error h2 (length h) = Some (Some (repeat CUndef (Z.to_nat row)))).
  { unfold h2. rewrite nth_error_app1 by lia. apply nth_snoc. }
  assert (E : ofold (fun h0 i => store h0 (Some (length h, 0)) i (CPtr (length h1) (i * col))) (zseq row) h2
    = Ok (upd h2 (length h) (Some (map (fun i => CPtr (length h1) (i * col)) (zseq row))))).
  { unfold zseq at 1.
    assert (M : forall l h0, ofold (fun h0 i => store h0 (Some (length h, 0)) i (CPtr (length h1) (i * col))) (map Z.of_nat l) h0
       = ofold (fun h0 i => store h0 (Some (length h, 0)) (Z.of_nat i) (CPtr (length h1) (Z.of_nat i * col))) l h0).
    { induction l; cbn [map ofold]; intros; auto. destruct (store _ _ _ _); cbn [obind]; auto. }
    rewrite M. eapply fill_loop.
    - exact Hp.
    - rewrite repeat_length, map_length, zseq_length. auto.
    - intros d i x Hd Hx. rewrite nth_error_map in Hx.
      destruct (nth_error (zseq row) i) as [z|] eqn:Z; [|discriminate].
      pose proof (nth_lt _ _ _ Z) as Z'. rewrite zseq_length in Z'. rewrite zseq_nth_nat in Z by auto.
      cbn in Hx. congruence.
    - rewrite map_length, zseq_length. apply Permutation_refl. }
  rewrite E. cbn [obind]. eexists; split; [reflexivity|].
  assert (L2 : length h2 = S (S (length h))) by (unfold h2; rewrite app_length; cbn; lia).
  split; [|split].
  - unfold mat. split; auto. split; [lia|]. split; auto. split; [|split].
    + rewrite nth_upd_same by lia. rewrite L1. auto.
    + rewrite nth_upd_other by lia. unfold h2. rewrite <- L1. rewrite nth_snoc.
      rewrite map_rep. auto.
    + rewrite repeat_length. lia.
  - rewrite upd_length. auto.
  - intros b Hb. rewrite nth_upd_other by lia. unfold h2, h1. rewrite !nth_error_app1; auto. rewrite app_length; lia.
Qed.

Lemma free_ok h b c : nth_error h b = Some (Some c) -> free h (Some (b, 0)) = Ok (upd h b None).
Proof. intros H. unfold free. cbn [Z.eqb]. rewrite (proj2 (block_some _ _ _) H). auto. Qed.

Theorem Release2D_ok h p rows cols pb pool M : mat h p rows cols pb pool M -> 0 < rows ->
  Release2DArray h p = Ok (upd (upd h pool None) pb None, None).
Proof.
  intros HM Hr. pose proof (mat_row _ _ _ _ _ _ _ 0 HM ltac:(lia)) as HR.
  destruct HM as (-> & Hne & _ & Hpb & HP & _). unfold Release2DArray. rewrite HR. cbn [obind].
  rewrite Z.mul_0_l. rewrite (free_ok _ _ _ HP). cbn [obind].
  rewrite (free_ok _ pb (map (fun i => CPtr pool (i * cols)) (zseq rows))); auto.
  rewrite nth_upd_other; auto.
Qed.

(** Histories of writes. *)
Fixpoint writes2 h (p : pointer) (ws : list (Z * Z * T)) : outcome (heap T) :=
  match ws with
  | [] => Ok h
  | (i, j, v) :: t => let* h' := write2 h p i j v in writes2 h' p t
  end.

Theorem writes_last : forall ws h p rows cols pb pool M,
  mat h p rows cols pb pool M ->
  Forall (fun w => 0 <= fst (fst w) < rows /\ 0 <= snd (fst w) < cols) ws ->
  exists h' M', writes2 h p ws = Ok h' /\ mat h' p rows cols pb pool M' /\
    (forall b, b <> pool -> nth_error h' b = nth_error h b) /\
    forall i j, 0 <= i < rows -> 0 <= j < cols ->
      read2 h' p i j = match find (fun w => (fst (fst w) =? i) && (snd (fst w) =? j)) (rev ws) with
                       | Some w => Ok (snd w) | None => read2 h p i j end.
Proof.
  induction ws as [|[[i j] v] ws IH]; intros h p rows cols pb pool M HM HF.
  - exists h, M. cbn. auto.
  - inversion HF as [|? ? [Hi Hj] HF']; subst. cbn [fst snd] in Hi, Hj.
    destruct (mat_write _ _ _ _ _ _ _ _ _ v HM Hi Hj) as (h1 & E1 & HM1 & _ & HB1).
    destruct (IH _ _ _ _ _ _ _ HM1 HF') as (h2 & M2 & E2 & HM2 & HB2 & HR).
    exists h2, M2. cbn [writes2]. rewrite E1. cbn [obind]. split; auto. split; auto.
    split; [intros; rewrite HB2; auto|]. intros i' j' Hi' Hj'. rewrite HR by auto.
    cbn [rev]. set (f := fun w : Z * Z * T => _).
    assert (FA : forall l x, find f (l ++ [x]) = match find f l with Some w => Some w | None => if f x then Some x else None end).
    { induction l as [|y l IHl]; intros x; cbn [app find]; auto. destruct (f y); auto. }
    rewrite FA. destruct (find f (rev ws)); auto.
    destruct (mat_read _ _ _ _ _ _ _ _ _ HM1 Hi' Hj') as (x1 & N1 & R1).
    destruct (mat_read _ _ _ _ _ _ _ _ _ HM Hi' Hj') as (x0 & N0 & R0). rewrite R1, R0.
    pose proof (cell_range _ _ _ _ Hi Hj). pose proof (cell_range _ _ _ _ Hi' Hj').
    rewrite upd_nth in N1. unfold f. cbn [fst snd].
    destruct (Z.eqb_spec i i') as [->|Ni]; [destruct (Z.eqb_spec j j') as [->|Nj]|]; cbn [andb].
    + rewrite Nat.eqb_refl in N1. destruct HM as (_&_&_&_&_&HL).
      destruct (Nat.ltb_spec (Z.to_nat (i' * cols + j')) (length M)); [|lia]. cbn in N1 |- *. congruence.
    + destruct (Nat.eqb_spec (Z.to_nat (i' * cols + j')) (Z.to_nat (i' * cols + j))); [lia|]. cbn in N1 |- *. congruence.
    + destruct (Nat.eqb_spec (Z.to_nat (i' * cols + j')) (Z.to_nat (i * cols + j))); [nia|]. cbn in N1 |- *. congruence.
Qed.

(** ** Irregular arrays *)
Section Jag.
Variables (toint : T -> option Z) (cast : T -> T).

(** The 1D encoding of rows: each row preceded by its length. *)
Definition flat (rs : list (T * list T)) : list T := concat (map (fun nr => fst nr :: snd nr) rs).
Definition lens (rs : list (T * list T)) : list Z := map (fun nr => Z.of_nat (length (snd nr))) rs.
Definition counted (nr : T * list T) : Prop := toint (fst nr) = Some (Z.of_nat (length (snd nr))).

Lemma flat_app a b : flat (a ++ b) = flat a ++ flat b.
Proof. unfold flat. rewrite map_app, concat_app. auto. Qed.

Lemma flat_one nr : length (flat [nr]) = S (length (snd nr)).
Proof. clear. unfold flat. cbn. rewrite app_nil_r. auto. Qed.

Lemma count_loop : forall l h b c is pre cols mx,
  nth_error h b = Some (Some c) -> Forall counted l -> length is = length l ->
  (forall k x, nth_error (flat l) k = Some x -> nth_error c (S (length (flat pre) + k)) = Some (CVal x)) ->
  ofold (count_cols toint h (Some (b, 0))) is (1 + Z.of_nat (length (flat pre)), cols, mx) =
  Ok (1 + Z.of_nat (length (flat (pre ++ l))), cols ++ lens l, fold_left Z.max (lens l) mx).
Proof.
  induction l as [|[n r] l IH]; intros h b c is pre cols mx Hb HF HL Hc.
  - destruct is; [|discriminate]. cbn [ofold lens map fold_left]. rewrite !app_nil_r. auto.
  - destruct is as [|i0 is]; [discriminate|]. inversion HF as [|? ? Hn HF']; subst. red in Hn. cbn [fst snd] in Hn.
    cbn [ofold]. unfold count_cols at 1. unfold load_val.
    rewrite (load_ok _ b c _ _ (CVal n) Hb).
    + cbn [obind]. rewrite Hn. cbn [obind lens map fold_left fst snd].
      replace (1 + Z.of_nat (length (flat pre)) + Z.of_nat (length r) + 1)
        with (1 + Z.of_nat (length (flat (pre ++ [(n, r)])))).
      2:{ rewrite flat_app, app_length, flat_one. cbn [snd]. lia. }
      rewrite IH with (c := c); auto.
      * rewrite <- !app_assoc. cbn [app]. unfold lens.
        replace (if Z.of_nat (length r) >? mx then Z.of_nat (length r) else mx) with (Z.max mx (Z.of_nat (length r))); auto.
        destruct (Z.gtb_spec (Z.of_nat (length r)) mx); lia.
      * intros k x Hk. rewrite flat_app, app_length, flat_one. cbn [snd].
        replace (S (length (flat pre) + S (length r) + k))%nat with (S (length (flat pre) + (S (length r) + k)))%nat by lia.
        apply Hc. cbn. rewrite nth_error_app2 by lia. rewrite <- Hk. f_equal. lia.
    + lia.
    + replace (Z.to_nat (0 + (1 + Z.of_nat (length (flat pre))))) with (S (length (flat pre) + 0)) by lia.
      apply Hc. auto.
Qed.

Lemma zseq_firstn_lens rs i nr : nth_error rs i = Some nr -> aget (lens rs) (Z.of_nat i) = Ok (Z.of_nat (length (snd nr))).
Proof. intros H. apply aget_ok; [lia|]. rewrite Nat2Z.id. unfold lens. rewrite nth_error_map, H. auto. Qed.

Lemma firstn_S_nth {A} : forall (l : list A) n x, nth_error l n = Some x -> firstn (S n) l = firstn n l ++ [x].
Proof.
  induction l as [|a l IH]; intros [|n] x H; try discriminate; cbn in *; [congruence|].
  f_equal. apply IH; auto.
Qed.

Lemma ptr_loop rs h p pool d0 : nth_error h p = Some (Some d0) -> length d0 = length rs ->
  forall n, (n <= length rs)%nat -> exists d,
  ofold (fun (s : heap T * Z) i =>
     let* h' := store (fst s) (Some (p, 0)) i (CPtr pool (snd s)) in
     let* c := aget (lens rs) i in Ok (h', snd s + c + 1)) (zseq (Z.of_nat n)) (h, 0)
  = Ok (upd h p (Some d), Z.of_nat (length (flat (firstn n rs)))) /\ length d = length rs /\
  (forall i, (i < n)%nat -> nth_error d i = Some (CPtr pool (Z.of_nat (length (flat (firstn i rs)))))).
Proof.
  intros Hp Hd. induction n as [|n IH]; intros Hn.
  - exists d0. cbn. rewrite (upd_same h p _ Hp). split; auto. split; auto. intros; lia.
  - destruct IH as (d & E & L & N); [lia|].
    destruct (nth_error rs n) as [nr|] eqn:En; [|apply nth_error_None in En; lia].
    exists (upd d n (CPtr pool (Z.of_nat (length (flat (firstn n rs)))))).
    replace (Z.of_nat (S n)) with (Z.of_nat n + 1) by lia. rewrite zseq_S by lia. rewrite ofold_app, E.
    cbn [obind ofold fst snd].
    rewrite (store_ok _ _ d) by (first [apply nth_upd_same; eapply nth_lt; eauto|lia]).
    cbn [obind]. rewrite (zseq_firstn_lens _ _ _ En). cbn [obind]. split; [|split].
    + rewrite upd_repeat_map. rewrite Z.add_0_l, Nat2Z.id. f_equal. f_equal.
      rewrite (firstn_S_nth _ _ _ En), flat_app, app_length, flat_one. lia.
    + rewrite upd_length; auto.
    + intros i Hi. destruct (Nat.eq_dec i n) as [->|].
      * apply nth_upd_same. lia.
      * rewrite nth_upd_other by auto. apply N. lia.
Qed.

Lemma nth_flat rs : forall i n r j x, nth_error rs i = Some (n, r) -> nth_error (n :: r) j = Some x ->
  nth_error (flat rs) (length (flat (firstn i rs)) + j) = Some x.
Proof.
  induction rs as [|[n0 r0] rs IH]; intros [|i] n r j x Hi Hj; try discriminate.
  - injection Hi as -> ->. cbn [firstn flat map concat length Nat.add fst snd].
    change (concat (map (fun nr => fst nr :: snd nr) rs)) with (flat rs).
    rewrite nth_error_app1; auto. eapply nth_lt; eauto.
  - cbn [nth_error] in Hi. specialize (IH _ _ _ _ _ Hi Hj).
    cbn [firstn]. change (flat ((n0, r0) :: firstn i rs)) with ((n0 :: r0) ++ flat (firstn i rs)).
    change (flat ((n0, r0) :: rs)) with ((n0 :: r0) ++ flat rs).
    rewrite app_length. rewrite nth_error_app2 by lia. rewrite <- IH. f_equal. lia.
Qed.

Theorem Jagged_ok h b t0 rs rest ord :
  toint t0 = Some (Z.of_nat (length rs)) -> Forall counted rs ->
  nth_error h b = Some (Some (map CVal (t0 :: flat rs) ++ rest)) ->
  schedule (Z.of_nat (length (flat rs))) ord ->
  exists h', InitializeJagged toint cast true true ord h (Some (b, 0)) =
    Ok (h', Some (length h, 0), true, Z.of_nat (length rs), fold_left Z.max (lens rs) (-1)) /\
  (forall i n r j x, nth_error rs i = Some (n, r) -> nth_error (n :: r) j = Some x ->
     read2 h' (Some (length h, 0)) (Z.of_nat i) (Z.of_nat j) = Ok (cast x)) /\
  (forall b', (b' < length h)%nat -> nth_error h' b' = nth_error h b') /\
  (rs <> [] -> Release2DArray h' (Some (length h, 0)) =
     Ok (h ++ [None; None], None)).
Proof.
  intros Ht HF Hb HS. unfold InitializeJagged, load_val.
  rewrite (load_ok _ b _ _ _ (CVal t0) Hb) by (cbn; auto; lia). cbn [obind]. rewrite Ht.
  unfold alloc at 1. destruct (Z.leb_spec 0 (Z.of_nat (length rs))); [|lia]. cbn [andb].
  rewrite Nat2Z.id. set (h1 := h ++ [Some (repeat CUndef (length rs))]).
  assert (L1 : length h1 = S (length h)) by (unfold h1; rewrite app_length; cbn; lia).
  assert (Hb1 : nth_error h1 b = Some (Some (map CVal (t0 :: flat rs) ++ rest))).
  { unfold h1. rewrite nth_error_app1; auto. eapply nth_lt; eauto. }
  pose proof (count_loop rs h1 b _ (zseq (Z.of_nat (length rs))) [] [] (-1) Hb1 HF) as HC.
  change (1 + Z.of_nat (length (flat []))) with 1 in HC. cbn [app] in HC. rewrite HC; clear HC.
  2:{ rewrite zseq_length. lia. }
  2:{ intros k x Hk. cbn [flat map concat length Nat.add nth_error app].
      rewrite nth_error_app1 by (rewrite map_length; eapply nth_lt; eauto). rewrite nth_error_map, Hk. auto. }
  cbn [obind]. replace (1 + Z.of_nat (length (flat rs)) - 1) with (Z.of_nat (length (flat rs))) by lia.
  rewrite (Init1DFrom_ok cast h1 _ b (0 + 1) (flat rs) ord); auto; try lia.
  2:{ eexists; split; [exact Hb1|]. intros i x Hx. change (Z.to_nat (0 + 1) + i)%nat with (S i).
      cbn [map app nth_error]. rewrite nth_error_app1 by (rewrite map_length; eapply nth_lt; eauto).
      rewrite nth_error_map, Hx. auto. }
  cbn [obind]. set (h2 := h1 ++ [Some (map (fun x => CVal (cast x)) (flat rs))]).
  assert (Hp2 : nth_error h2 (length h) = Some (Some (repeat CUndef (length rs)))).
  { unfold h2. rewrite nth_error_app1 by lia. apply nth_snoc. }
  destruct (ptr_loop rs h2 (length h) (length h1) _ Hp2 (repeat_length _ _) (length rs) (le_n _)) as (d & E & Ld & Nd).
  rewrite E. cbn [obind fst snd]. eexists; split; [reflexivity|].
  assert (L2 : length h2 = S (S (length h))) by (unfold h2; rewrite app_length; cbn; lia).
  assert (Hd : nth_error (upd h2 (length h) (Some d)) (length h) = Some (Some d)) by (apply nth_upd_same; lia).
  assert (Hpool : nth_error (upd h2 (length h) (Some d)) (length h1) = Some (Some (map (fun x => CVal (cast x)) (flat rs)))).
  { rewrite nth_upd_other by lia. apply nth_snoc. }
  split; [|split].
  - intros i n r j x Hi Hj. unfold read2, load_ptr.
    rewrite (load_ok _ (length h) d _ _ (CPtr (length h1) (Z.of_nat (length (flat (firstn i rs)))))); auto; try lia.
    2:{ rewrite Z.add_0_l, Nat2Z.id. apply Nd. eapply nth_lt; eauto. }
    cbn [obind]. unfold load_val. rewrite (load_ok _ _ _ _ _ (CVal (cast x)) Hpool); auto; try lia.
    rewrite nth_error_map. replace (Z.to_nat _) with (length (flat (firstn i rs)) + j)%nat by lia.
    rewrite (nth_flat _ _ _ _ _ _ Hi Hj). auto.
  - intros b' Hb'. rewrite nth_upd_other by lia. unfold h2, h1. rewrite !nth_error_app1; auto. rewrite app_length; lia.
  - intros Hne. unfold Release2DArray, load_ptr.
    rewrite (load_ok _ (length h) d _ _ (CPtr (length h1) 0)); auto; try lia.
    2:{ rewrite Z.add_0_l. change (Z.to_nat 0) with O. rewrite (Nd O); [auto|]. destruct rs; [congruence|cbn; lia]. }
    cbn [obind]. rewrite (free_ok _ _ _ Hpool). cbn [obind].
    rewrite (free_ok _ (length h) d) by (rewrite nth_upd_other by lia; auto). cbn [obind].
    f_equal. f_equal. apply nth_error_ext. intros k.
    destruct (Nat.eq_dec k (length h)) as [->|N1].
    + rewrite nth_upd_same by (rewrite !upd_length; lia). rewrite nth_error_app2 by lia. rewrite Nat.sub_diag. auto.
    + rewrite nth_upd_other by auto. destruct (Nat.eq_dec k (length h1)) as [->|N2].
      * rewrite nth_upd_same by (rewrite upd_length; lia). rewrite L1, nth_error_app2 by lia.
        replace (S (length h) - length h)%nat with 1%nat by lia. auto.
      * rewrite !nth_upd_other by auto. destruct (Nat.lt_ge_cases k (length h)).
        -- unfold h2, h1. rewrite !nth_error_app1; auto. rewrite app_length; lia.
        -- transitivity (@None (option (list (cell T)))); [|symmetry]; apply nth_error_None; [|rewrite app_length; cbn]; lia.
Qed.
End Jag.

(** ** Vectors *)
Variable eqb : T -> T -> bool.
Lemma ValueInVector_spec v l : ValueInVector eqb v l = true <-> exists x, In x l /\ eqb x v = true.
Proof.
  unfold ValueInVector. destruct l as [|a l]; [|apply existsb_exists].
  split; [discriminate|intros (x & [] & _)].
Qed.
Lemma remove_loop_spec v : forall rest done, remove_loop eqb v done rest = done ++ filter (fun x => negb (eqb x v)) rest.
Proof.
  induction rest as [|x rest IH]; intros done; cbn; [rewrite app_nil_r; auto|].
  rewrite !IH. destruct (eqb x v); cbn; auto. rewrite <- app_assoc. auto.
Qed.
Lemma RemoveValue_spec v l : RemoveValueInVector eqb v l = filter (fun x => negb (eqb x v)) l.
Proof. apply remove_loop_spec. Qed.

Lemma ValueIn_Remove v l : ValueInVector eqb v (RemoveValueInVector eqb v l) = false.
Proof.
  destruct (ValueInVector eqb v (RemoveValueInVector eqb v l)) eqn:E; auto.
  apply ValueInVector_spec in E. destruct E as (x & Hx & Ex). rewrite RemoveValue_spec in Hx.
  apply filter_In in Hx. rewrite Ex in Hx. destruct Hx; discriminate.
Qed.
End P.

Lemma RemoveValue_count {T} (dec : forall a b : T, {a = b} + {a <> b}) v l x :
  count_occ dec (RemoveValueInVector (fun a b => if dec a b then true else false) v l) x =
  if dec x v then 0%nat else count_occ dec l x.
Proof.
  rewrite RemoveValue_spec. induction l as [|a l IH]; cbn [filter count_occ]; [destruct (dec x v); auto|].
  destruct (dec a v) as [->|N]; cbn [negb].
  - rewrite IH. destruct (dec x v); auto. destruct (dec v x); congruence.
  - cbn [count_occ]. rewrite IH. destruct (dec a x), (dec x v); congruence.
Qed.

Lemma pool_failure (h : heap Z) row col v ord : 0 < row -> 0 <= col ->
  exists h' p, Initialize2DArray true false ord h None row col v = Ok (h', Some p, false) /\
    length h' = S (length h) /\ Release2DArray h' (Some p) = UB.
Proof.
  intros Hr Hc. unfold Initialize2DArray, alloc. destruct (Z.leb_spec 0 row); [|lia]. cbn [andb].
  do 2 eexists. split; [reflexivity|]. split; [rewrite app_length; cbn; lia|].
  unfold Release2DArray, load_ptr. rewrite (load_ok _ _ (repeat CUndef (Z.to_nat row)) _ _ CUndef); auto; try lia.
  - apply nth_snoc.
  - rewrite Z.add_0_l. change (Z.to_nat 0) with O. destruct (Z.to_nat row) eqn:E; [lia|reflexivity].
Qed.
