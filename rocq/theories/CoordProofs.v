(** Proofs about CoordModel. *)
From Coq Require Import ZArith QArith Qabs Qround Bool Lia Lqa.
From Verif Require Import Base RasterModel CoordModel CoordSpec.
Open Scope Z_scope.

Lemma qltb_lt a b : qltb a b = true <-> (a < b)%Q.
Proof.
  unfold qltb. rewrite negb_true_iff. destruct (Qle_bool b a) eqn:E.
  - apply Qle_bool_iff in E. split; [discriminate|]. intros H. exfalso. lra.
  - split; [|reflexivity]. intros _. apply Qnot_le_lt. intros H. apply Qle_bool_iff in H. congruence.
Qed.
Lemma qltb_ge a b : qltb a b = false <-> (b <= a)%Q.
Proof.
  destruct (qltb a b) eqn:E.
  - apply qltb_lt in E. split; [discriminate|]. intros H. exfalso. lra.
  - split; [|reflexivity]. intros _. apply Qnot_lt_le. intros H. apply qltb_lt in H. congruence.
Qed.

Lemma qtrunc_spec q k : 0 <= k -> (inject_Z k <= q)%Q -> (q < inject_Z (k + 1))%Q -> qtrunc q = k.
Proof.
  intros Hk H1 H2. unfold qtrunc. destruct q as [n d]. cbn [Qnum Qden].
  unfold Qle, Qlt, inject_Z in *. cbn [Qnum Qden] in *.
  symmetry. apply Z.quot_unique with (r := n - k * Z.pos d); lia.
Qed.

Lemma x_min_eq g : (x_min g == g_xll g - (1 # 2) * g_cs g)%Q.
Proof. unfold x_min. field. Qed.
Lemma y_min_eq g : (y_min g == g_yll g - (1 # 2) * g_cs g)%Q.
Proof. unfold y_min. field. Qed.
Lemma x_max_eq g : (x_max g == x_min g + inject_Z (g_cols g) * g_cs g)%Q.
Proof. unfold x_max. ring. Qed.
Lemma y_max_eq g : (y_max g == y_min g + inject_Z (g_rows g) * g_cs g)%Q.
Proof. unfold y_max. ring. Qed.
Ltac geo g := pose proof (x_min_eq g); pose proof (y_min_eq g); pose proof (x_max_eq g); pose proof (y_max_eq g).

Section Geo.
Variable g : geo.
Hypothesis CS : (0 < g_cs g)%Q.

Lemma col_trunc c x : 0 <= c -> (g_xll g + (inject_Z c - (1 # 2)) * g_cs g <= x)%Q ->
  (x < g_xll g + (inject_Z c + (1 # 2)) * g_cs g)%Q -> qtrunc ((x - x_min g) / g_cs g) = c.
Proof.
  intros Hc H1 H2. apply qtrunc_spec; [exact Hc| |].
  - apply Qle_shift_div_l; [exact CS|]. geo g. lra.
  - apply Qlt_shift_div_r; [exact CS|]. rewrite inject_Z_plus. geo g. change (inject_Z 1) with 1%Q. lra.
Qed.

Lemma row_trunc r y : 0 <= r ->
  (g_yll g + (inject_Z (g_rows g - r - 1) - (1 # 2)) * g_cs g < y)%Q ->
  (y <= g_yll g + (inject_Z (g_rows g - r - 1) + (1 # 2)) * g_cs g)%Q ->
  qtrunc ((y_max g - y) / g_cs g) = r.
Proof.
  intros Hr H1 H2.
  assert (E : (inject_Z (g_rows g - r - 1) == inject_Z (g_rows g) - inject_Z r - 1)%Q).
  { unfold Z.sub. rewrite !inject_Z_plus, !inject_Z_opp. change (inject_Z 1) with 1%Q. ring. }
  rewrite E in H1, H2.
  apply qtrunc_spec; [exact Hr| |].
  - apply Qle_shift_div_l; [exact CS|]. geo g. lra.
  - apply Qlt_shift_div_r; [exact CS|]. rewrite inject_Z_plus. geo g. change (inject_Z 1) with 1%Q. lra.
Qed.

Lemma inj_le a b : a <= b -> (inject_Z a <= inject_Z b)%Q.
Proof. rewrite <- Zle_Qle. auto. Qed.

Lemma mul_le a b : (a <= b)%Q -> (a * g_cs g <= b * g_cs g)%Q.
Proof. intros. apply Qmult_le_compat_r; lra. Qed.

(** The extent tests pass for points of a grid cell. *)
Lemma in_extent r c x y : cell_of_grid g r c -> in_cell g r c x y ->
  (x_min g <= x)%Q /\ (x <= x_max g)%Q /\ (y_min g <= y)%Q /\ (y <= y_max g)%Q.
Proof.
  intros [Hr Hc] (H1 & H2 & H3 & H4). geo g.
  pose proof (mul_le _ _ (inj_le 0 c ltac:(lia))) as A. change (inject_Z 0) with 0%Q in A.
  pose proof (mul_le _ _ (inj_le (c + 1) (g_cols g) ltac:(lia))) as B. rewrite inject_Z_plus in B. change (inject_Z 1) with 1%Q in B.
  pose proof (mul_le _ _ (inj_le 0 (g_rows g - r - 1) ltac:(lia))) as C. change (inject_Z 0) with 0%Q in C.
  pose proof (mul_le _ _ (inj_le (g_rows g - r - 1 + 1) (g_rows g) ltac:(lia))) as D. rewrite inject_Z_plus in D. change (inject_Z 1) with 1%Q in D.
  repeat split; lra.
Qed.

Lemma by_coordinate r c x y : cell_of_grid g r c -> in_cell g r c x y -> (g_xll g <= x)%Q -> (g_yll g <= y)%Q ->
  GetPositionByCoordinate g x y = (r, c).
Proof.
  intros G I Hx Hy. pose proof (in_extent r c x y G I) as (E1 & E2 & E3 & E4).
  destruct I as (H1 & H2 & H3 & H4). unfold GetPositionByCoordinate.
  rewrite (proj2 (qltb_ge _ _) E2), (proj2 (qltb_ge _ _) Hx), (proj2 (qltb_ge _ _) E4), (proj2 (qltb_ge _ _) Hy).
  cbn [orb]. destruct G as [Gr Gc]. rewrite (row_trunc r y), (col_trunc c x); auto; lia.
Qed.

Lemma centre_in_cell r c : in_cell g r c (fst (GetCoordinateByRowCol g r c)) (snd (GetCoordinateByRowCol g r c)).
Proof. unfold in_cell, GetCoordinateByRowCol. cbn [fst snd]. repeat split; lra. Qed.

Lemma centre_ge r c : cell_of_grid g r c ->
  (g_xll g <= fst (GetCoordinateByRowCol g r c))%Q /\ (g_yll g <= snd (GetCoordinateByRowCol g r c))%Q.
Proof.
  intros [Hr Hc]. cbn [GetCoordinateByRowCol fst snd].
  pose proof (mul_le _ _ (inj_le 0 c ltac:(lia))) as A. change (inject_Z 0) with 0%Q in A.
  pose proof (mul_le _ _ (inj_le 0 (g_rows g - r - 1) ltac:(lia))) as C. change (inject_Z 0) with 0%Q in C.
  split; lra.
Qed.

Lemma strips x y : (x < g_xll g)%Q \/ (y < g_yll g)%Q -> GetPositionByCoordinate g x y = (-1, -1).
Proof.
  intros H. unfold GetPositionByCoordinate.
  destruct H as [H|H]; apply qltb_lt in H; rewrite H; rewrite ?orb_true_r; reflexivity.
Qed.

(** Right edge: the column number is the column count. *)
Lemma right_edge y r : 0 < g_cols g -> 0 <= r < g_rows g ->
  (g_yll g + (inject_Z (g_rows g - r - 1) - (1 # 2)) * g_cs g < y)%Q ->
  (y <= g_yll g + (inject_Z (g_rows g - r - 1) + (1 # 2)) * g_cs g)%Q -> (g_yll g <= y)%Q ->
  GetPositionByCoordinate g (x_max g) y = (r, g_cols g).
Proof.
  intros Hc Hr H3 H4 Hy. unfold GetPositionByCoordinate.
  assert (X : (g_xll g <= x_max g)%Q).
  { geo g. pose proof (mul_le _ _ (inj_le 1 (g_cols g) ltac:(lia))) as A. change (inject_Z 1) with 1%Q in A. lra. }
  assert (Y : (y <= y_max g)%Q).
  { geo g. pose proof (mul_le _ _ (inj_le (g_rows g - r - 1 + 1) (g_rows g) ltac:(lia))) as D.
    rewrite inject_Z_plus in D. change (inject_Z 1) with 1%Q in D. lra. }
  rewrite (proj2 (qltb_ge _ _) (Qle_refl _)), (proj2 (qltb_ge _ _) X), (proj2 (qltb_ge _ _) Y), (proj2 (qltb_ge _ _) Hy).
  cbn [orb]. f_equal.
  - apply row_trunc; auto; lia.
  - apply qtrunc_spec; [lia| |].
    + apply Qle_shift_div_l; [exact CS|]. geo g. lra.
    + apply Qlt_shift_div_r; [exact CS|]. rewrite inject_Z_plus. geo g. change (inject_Z 1) with 1%Q. lra.
Qed.
End Geo.

Lemma q_feq_false a b : (1 # 100000000000000000000000000000000 <= a - b \/ a - b <= - (1 # 100000000000000000000000000000000))%Q ->
  q_feq a b = false.
Proof.
  intros H. unfold q_feq. apply qltb_ge. apply Qabs_case; intros; lra.
Qed.

Lemma position_xy {T} (r : raster T) i j x y : r_init r = true -> (0 < r_cs r)%Q -> header_known (geo_of r) ->
  cell_of_grid (geo_of r) i j -> in_cell (geo_of r) i j x y ->
  GetPositionXY r x y = GetPosition r i j.
Proof.
  intros Hi CS [K1 K2] G I. pose proof (in_extent (geo_of r) CS i j x y G I) as (E1 & E2 & E3 & E4).
  unfold GetPositionXY. rewrite Hi. cbn [negb].
  rewrite (q_feq_false _ _ K1), (q_feq_false _ _ K2).
  rewrite (q_feq_false (g_cs (geo_of r)) (inject_Z (-9999))).
  2:{ left. cbn [geo_of g_cs]. change (inject_Z (-9999)) with (-9999 # 1). lra. }
  destruct G as [Gr Gc].
  replace (g_rows (geo_of r) <? 0) with false by (symmetry; apply Z.ltb_ge; lia).
  replace (g_cols (geo_of r) <? 0) with false by (symmetry; apply Z.ltb_ge; lia). cbn [orb].
  rewrite (proj2 (qltb_ge _ _) E1), (proj2 (qltb_ge _ _) E2), (proj2 (qltb_ge _ _) E3), (proj2 (qltb_ge _ _) E4). cbn [orb].
  destruct I as (H1 & H2 & H3 & H4).
  rewrite (row_trunc (geo_of r) CS i y), (col_trunc (geo_of r) CS j x); auto; lia.
Qed.

Lemma axis_cell n o s x : (0 < s)%Q -> (o - (1 # 2) * s < x)%Q -> (x < o + (inject_Z n - (1 # 2)) * s)%Q ->
  exists k, 0 <= k < n /\ (o + (inject_Z k - (1 # 2)) * s <= x)%Q /\ (x < o + (inject_Z k + (1 # 2)) * s)%Q.
Proof.
  intros S H1 H2. set (q := ((x - o) / s + (1 # 2))%Q).
  assert (E : (x == o + (q - (1 # 2)) * s)%Q) by (unfold q; field; lra).
  assert (Q0 : (0 < q)%Q).
  { apply Qmult_lt_r with s; [exact S|]. lra. }
  assert (Q1 : (q < inject_Z n)%Q).
  { apply Qmult_lt_r with s; [exact S|]. lra. }
  pose proof (Qfloor_le q) as F1. pose proof (Qlt_floor q) as F2. rewrite inject_Z_plus in F2. change (inject_Z 1) with 1%Q in F2.
  exists (Qfloor q). split; [split|].
  - rewrite Zle_Qle. change (inject_Z 0) with 0%Q. destruct (Z_lt_le_dec (Qfloor q) 0) as [L|L]; [|rewrite Zle_Qle in L; exact L].
    assert (L' : Qfloor q + 1 <= 0) by lia. rewrite Zle_Qle, inject_Z_plus in L'. change (inject_Z 1) with 1%Q in L'. change (inject_Z 0) with 0%Q in L'. lra.
  - rewrite Zlt_Qlt. lra.
  - pose proof (Qmult_le_compat_r _ _ s F1 ltac:(lra)). pose proof (Qmult_lt_compat_r _ _ s S F2). split; lra.
Qed.

Lemma axis_cell' n o s x : (0 < s)%Q -> (o - (1 # 2) * s < x)%Q -> (x < o + (inject_Z n - (1 # 2)) * s)%Q ->
  exists k, 0 <= k < n /\ (o + (inject_Z k - (1 # 2)) * s < x)%Q /\ (x <= o + (inject_Z k + (1 # 2)) * s)%Q.
Proof.
  intros S H1 H2.
  destruct (axis_cell n (- (o + (inject_Z n - 1) * s))%Q s (- x)%Q S) as (k & K & A & B); [lra|lra|].
  assert (E : (inject_Z (n - k - 1) == inject_Z n - inject_Z k - 1)%Q).
  { replace (n - k - 1) with (n + - k + - (1)) by lia. rewrite !inject_Z_plus, !inject_Z_opp. change (inject_Z 1) with 1%Q. ring. }
  exists (n - k - 1). split; [lia|]. rewrite E. split; lra.
Qed.

Lemma has_cell g x y : (0 < g_cs g)%Q -> inside_extent g x y -> exists r c, cell_of_grid g r c /\ in_cell g r c x y.
Proof.
  intros S (H1 & H2 & H3 & H4). destruct (axis_cell _ _ _ _ S H1 H2) as (c & C & C1 & C2).
  destruct (axis_cell' _ _ _ _ S H3 H4) as (k & K & K1 & K2).
  exists (g_rows g - k - 1), c. split; [split; lia|]. unfold in_cell.
  replace (g_rows g - (g_rows g - k - 1) - 1) with k by lia. auto.
Qed.
