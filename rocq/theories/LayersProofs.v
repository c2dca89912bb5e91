(** Layers read from files: cells of one layer. *)
From Coq Require Import ZArith Reals Lia Lra Ascii String List Bool Permutation ZifyBool.
From Flocq Require Import Core BinarySingleNaN.
From Verif Require Import Base ListLib StrModel MapModel BasicModel FloatModel FloatProofs TypeModel CoordFloatModel CoordFloatSpec CoordFloatProofs
  FsModel RasterModel RasterSpec CopyModel AscModel AscSpec AscProofs AscProofs2 CellModel GridfsModel LayersModel LayersSpec.
Import ListNotations.
Open Scope Z_scope.
Open Scope outcome_scope.

(** ** FloatEqual does not depend on the order *)
Lemma FloatEqual_sym a b : FloatEqual a b = FloatEqual b a.
Proof.
  destruct (is_finite a) eqn:Fa, (is_finite b) eqn:Fb.
  - rewrite !FloatEqual_R by assumption. f_equal. replace (B2R b - B2R a)%R with (- (B2R a - B2R b))%R by ring.
    rewrite round_NE_opp, Rabs_Ropp. reflexivity.
  - destruct a, b; try discriminate; cbn; try reflexivity; destruct s, s0; reflexivity.
  - destruct a, b; try discriminate; cbn; try reflexivity; destruct s, s0; reflexivity.
  - destruct a, b; try discriminate; cbn; try reflexivity; destruct s, s0; reflexivity.
Qed.

Lemma cells_equal_sym a b : cells_equal a b = cells_equal b a.
Proof. apply FloatEqual_sym. Qed.

(** ** Points outside *)
Lemma fposition_apart g x y : sane g -> apart g x y -> fPositionByCoordinate g x y = Ok (-1, -1).
Proof.
  intros (FX & FY & FS & [S1 S2] & HX & HY & NR & NC) (Fx & Fy & C). unfold fPositionByCoordinate.
  change (fx_max g) with (hi g (fg_xll g) (fg_cols g)). change (fy_max g) with (hi g (fg_yll g) (fg_rows g)).
  destruct (hi_near g FS S1 S2 (fg_xll g) FX HX (fg_cols g) NC) as [F1 N1].
  destruct (hi_near g FS S1 S2 (fg_yll g) FY HY (fg_rows g) NR) as [F2 N2].
  rewrite !flt_R by assumption. pose proof (bpow_gt_0 radix2 (-900)) as P. change (2 ^ 10)%Z with 1024%Z in *.
  apply Rabs_le_inv in N1. apply Rabs_le_inv in N2. destruct C as [C|[C|[C|C]]].
  - rewrite (Rlt_bool_true (B2R x)) by exact C. rewrite orb_true_r. reflexivity.
  - rewrite (Rlt_bool_true (B2R y)) by exact C. rewrite !orb_true_r. reflexivity.
  - rewrite (Rlt_bool_true _ (B2R x)) by lra. reflexivity.
  - rewrite (Rlt_bool_true _ (B2R y)) by lra. rewrite orb_true_r. reflexivity.
Qed.

(** ** One cell *)
Definition layer_value (l : flayer) (nd : num) (x y : f64) : num :=
  match fPositionByCoordinate (fl_geo l) x y with
  | Ok (i, j) =>
      if (i =? -1) || (j =? -1) then nd
      else match nth_error (fl_vals l) (Z.to_nat (i * fg_cols (fl_geo l) + j)) with
           | Some w => if FloatEqual (as_double w) (fl_nodata l) then nd else w
           | None => nd
           end
  | _ => nd
  end.

Lemma seen_value l nd x y v : proper l -> seen l nd x y v -> layer_value l nd x y = v.
Proof.
  intros (G & S & L) [(i & j & w & W & X & Y & (I & J & E) & ->)|(A & ->)]; unfold layer_value.
  - rewrite (fposition _ i j x y S W X Y). replace ((i =? -1) || (j =? -1)) with false by lia. rewrite E. reflexivity.
  - rewrite (fposition_apart _ _ _ S A). reflexivity.
Qed.

Lemma grid_ints rows cols : grid_size rows cols -> in_int rows /\ in_int cols /\ in_int (rows * cols).
Proof. intros (R & C & M). unfold in_int, INT_MIN, INT_MAX in *. nia. Qed.

Lemma own_geo_of h g nd : grid_size (fg_rows g) (fg_cols g) -> header_of h g nd -> own_geo h = Ok g.
Proof.
  intros G (R & C & X & Y & S & N). destruct (grid_ints _ _ G) as (IR & IC & _). unfold own_geo, centre, at_get, K_XLL, K_YLL, K_CELLSIZE, K_NROWS, K_NCOLS.
  rewrite R, C, X, Y, S. cbn [deref obind]. rewrite (f_int_of_int _ IR). cbn [obind]. rewrite (f_int_of_int _ IC). cbn [obind]. destruct g; reflexivity.
Qed.

Lemma layer_geo_of h g nd : grid_size (fg_rows g) (fg_cols g) -> header_of h g nd -> layer_geo h = Ok g.
Proof.
  intros G (R & C & X & Y & S & N). destruct (grid_ints _ _ G) as (IR & IC & _). unfold layer_geo, at_get, K_XLL, K_YLL, K_CELLSIZE, K_NROWS, K_NCOLS.
  rewrite R, C, X, Y, S. cbn [obind]. rewrite (f_int_of_int _ IR). cbn [obind]. rewrite (f_int_of_int _ IC). cbn [obind]. destruct g; reflexivity.
Qed.

Lemma imul_inside i rows cols : grid_size rows cols -> 0 <= i < rows -> imul i cols = Ok (i * cols).
Proof.
  intros (R & C & M) I. unfold imul, in_intb. replace ((INT_MIN <=? i * cols) && (i * cols <=? INT_MAX)) with true; [reflexivity|].
  unfold INT_MIN, INT_MAX in *. symmetry. apply andb_true_iff. split; apply Z.leb_le; nia.
Qed.

Lemma add_seen own g nd0 h l nd row col cell lyr d v :
  own_geo own = Ok g -> proper l -> header_of h (fl_geo l) (fl_nodata l) -> nd0 = nd ->
  seen l nd (fst (fCoordinate g row col)) (snd (fCoordinate g row col)) v ->
  AddOtherLayer own nd0 row col cell lyr h (Some (fl_vals l)) d = put d cell lyr v.
Proof.
  intros OG (G & S & L) H -> SE. pose proof H as (R & C & X & Y & CS & N). destruct (grid_ints _ _ G) as (IR & IC & _).
  unfold AddOtherLayer. unfold at_get at 1 2, K_NCOLS, K_NODATA. rewrite C, N. cbn [obind]. rewrite (f_int_of_int _ IC). cbn [obind].
  rewrite OG. cbn [obind]. rewrite (layer_geo_of _ _ _ G H). cbn [obind].
  destruct SE as [(i & j & w & W & X' & Y' & (I & J & E) & ->)|(A & ->)].
  - rewrite (fposition _ i j _ _ S W X' Y'). cbn [obind fst snd]. replace ((i =? -1) || (j =? -1)) with false by lia.
    rewrite (imul_inside _ _ _ G I). cbn [obind deref]. rewrite (aget_ok _ _ w) by (lia || nia || exact E). reflexivity.
  - rewrite (fposition_apart _ _ _ S A). reflexivity.
Qed.

(** ** Writing one layer *)
(** [d'] is [d] with layer [k] of the cells [S] replaced by [f]. *)
Definition wrote (k : nat) (f : nat -> num) (S : nat -> bool) (d d' : list (list num)) : Prop :=
  List.length d' = List.length d /\
  forall i c, nth_error d i = Some c -> exists c', nth_error d' i = Some c' /\ List.length c' = List.length c /\
    forall j, nth_error c' j = if Nat.eqb j k && S i then Some (f i) else nth_error c j.

Lemma wrote_none k f d S : (forall i, (i < List.length d)%nat -> S i = false) -> wrote k f S d d.
Proof.
  intros E. split; [reflexivity|]. intros i c H. exists c. split; [exact H|]. split; [reflexivity|]. intros j.
  rewrite E, andb_false_r; [reflexivity|]. apply nth_error_Some. congruence.
Qed.

Lemma wrote_trans k f S1 S2 d d1 d2 : wrote k f S1 d d1 -> wrote k f S2 d1 d2 -> wrote k f (fun i => S1 i || S2 i) d d2.
Proof.
  intros [L1 W1] [L2 W2]. split; [congruence|]. intros i c H. destruct (W1 i c H) as (c1 & H1 & N1 & E1).
  destruct (W2 i c1 H1) as (c2 & H2 & N2 & E2). exists c2. split; [exact H2|]. split; [congruence|]. intros j.
  rewrite E2, E1. destruct (Nat.eqb j k), (S1 i), (S2 i); reflexivity.
Qed.

Lemma wrote_ext k f S1 S2 d d' : (forall i, (i < List.length d)%nat -> S1 i = S2 i) -> wrote k f S1 d d' -> wrote k f S2 d d'.
Proof.
  intros E [L W]. split; [exact L|]. intros i c H. destruct (W i c H) as (c' & H' & N & F). exists c'. split; [exact H'|]. split; [exact N|].
  intros j. rewrite F, E; [reflexivity|]. apply nth_error_Some. congruence.
Qed.

Lemma put_wrote d i k f c : nth_error d i = Some c -> (k < List.length c)%nat ->
  exists d', put d (Z.of_nat i) (Z.of_nat k) (f i) = Ok d' /\ wrote k f (Nat.eqb i) d d'.
Proof.
  intros H K. assert (I : (i < List.length d)%nat) by (apply nth_error_Some; congruence).
  unfold put. rewrite (aget_ok d (Z.of_nat i) c) by (rewrite ?Nat2Z.id; auto; lia). cbn [obind].
  rewrite (aset_ok c) by lia. cbn [obind]. rewrite aset_ok by lia. rewrite !Nat2Z.id. eexists; split; [reflexivity|].
  split; [apply upd_length|]. intros i' c' H'. rewrite upd_nth. destruct (Nat.eqb_spec i' i) as [->|NE].
  - replace (i <? List.length d)%nat with true by lia. cbn [andb]. exists (upd c k (f i)). split; [reflexivity|].
    assert (c' = c) by congruence. subst c'. split; [apply upd_length|]. intros j. rewrite upd_nth, Nat.eqb_refl.
    replace (k <? List.length c)%nat with true by lia. rewrite !andb_true_r. reflexivity.
  - cbn [andb]. exists c'. split; [exact H'|]. split; [reflexivity|]. intros j.
    replace (Nat.eqb i i') with false by (symmetry; apply Nat.eqb_neq; lia). rewrite andb_false_r. reflexivity.
Qed.

(** A table of [n] cells of [m] layers, the first of them [v0]. *)
Definition table (n m : nat) (v0 : nat -> num) (d : list (list num)) : Prop :=
  List.length d = n /\ forall i c, nth_error d i = Some c -> List.length c = m /\ nth_error c 0 = Some (v0 i).

Lemma wrote_table k f S n m v0 d d' : k <> 0%nat -> table n m v0 d -> wrote k f S d d' -> table n m v0 d'.
Proof.
  intros K [N T] [L W]. split; [congruence|]. intros i c' H'. destruct (nth_error d i) as [c|] eqn:H.
  - destruct (W i c H) as (c2 & H2 & N2 & E2). assert (c2 = c') by congruence. subst c2. destruct (T i c H) as [T1 T2].
    split; [congruence|]. rewrite E2. replace (Nat.eqb 0 k) with false by (symmetry; apply Nat.eqb_neq; lia). exact T2.
  - exfalso. apply nth_error_None in H. assert (i < List.length d')%nat by (apply nth_error_Some; congruence). lia.
Qed.

Lemma loop_wrote {B} (step : list (list num) -> B -> outcome (list (list num))) (cover : B -> nat -> bool) k f n m v0 :
  k <> 0%nat -> forall ord d, table n m v0 d ->
  (forall d i, In i ord -> table n m v0 d -> exists d', step d i = Ok d' /\ wrote k f (cover i) d d') ->
  exists d', ofold step ord d = Ok d' /\ wrote k f (fun c => existsb (fun i => cover i c) ord) d d'.
Proof.
  intros K. induction ord as [|b ord IH]; intros d T ST; cbn [ofold existsb].
  - exists d. split; [reflexivity|]. apply wrote_none. reflexivity.
  - destruct (ST d b (or_introl eq_refl) T) as (d1 & E1 & W1). rewrite E1. cbn [obind].
    destruct (IH d1 (wrote_table _ _ _ _ _ _ _ _ K T W1)) as (d2 & E2 & W2).
    { intros d' i I T'. apply ST; [right; exact I|exact T']. }
    exists d2. split; [exact E2|]. apply (wrote_trans _ _ _ _ _ _ _ W1 W2).
Qed.

(** Everything written when the iterations cover all cells. *)
Lemma covered_all {B} (cover : B -> nat -> bool) k f ord d d' :
  (forall i, (i < List.length d)%nat -> exists b, In b ord /\ cover b i = true) ->
  wrote k f (fun c => existsb (fun i => cover i c) ord) d d' -> wrote k f (fun _ => true) d d'.
Proof.
  intros C W. eapply wrote_ext; [|exact W]. intros i I. cbn beta. destruct (C i I) as (b & Ib & Cb).
  apply existsb_exists. eauto.
Qed.
