(** Masks with subsets: cells, windows and copies. *)
From Coq Require Import ZArith QArith List Bool Lia Lqa ZifyBool Sorted.
From Verif Require Import Base RasterModel RasterSpec RasterProofs RasterProofs2 RasterProofs3 ListLib CoordModel CoordSpec CoordProofs
  MaskModel MaskSpec SubsetModel SubsetSpec SubsetProofs MaskProofs4 MaskSubModel MaskSubSpec.
Import ListNotations.
Open Scope Z_scope.
Open Scope outcome_scope.

(** ** Lists *)
Lemma chosen_imp {A B} (k k' : A -> Prop) (r r' : A -> B -> Prop) l l' :
  (forall a, In a l -> (k a <-> k' a)) -> (forall a b, In a l -> k a -> r a b -> r' a b) -> chosen k r l l' -> chosen k' r' l l'.
Proof.
  intros H1 H2 C. induction C as [|a b l l' K R C IH|a l l' K C IH]; [constructor| |].
  - apply chosen_take; [apply H1; [left; reflexivity|exact K]|apply H2; auto; left; reflexivity|]. apply IH; intros; [apply H1|apply H2]; auto; right; assumption.
  - apply chosen_drop; [intros X; apply K, H1; [left; reflexivity|exact X]|]. apply IH; intros; [apply H1|apply H2]; auto; right; assumption.
Qed.

Lemma chosen_In {A B} (k : A -> Prop) (r : A -> B -> Prop) l l' : chosen k r l l' ->
  (forall b, In b l' -> exists a, In a l /\ k a /\ r a b) /\ (forall a, In a l -> k a -> exists b, In b l' /\ r a b).
Proof.
  intros C. induction C as [|a b l l' K R C [I1 I2]|a l l' K C [I1 I2]].
  - split; intros ? [].
  - split.
    + intros x [<-|X]; [exists a; auto using in_eq|]. destruct (I1 x X) as (y & Y & ? & ?). exists y; auto using in_cons.
    + intros x [<-|X] KX; [exists b; auto using in_eq|]. destruct (I2 x X KX) as (y & Y & ?). exists y; auto using in_cons.
  - split.
    + intros x X. destruct (I1 x X) as (y & Y & ? & ?). exists y; auto using in_cons.
    + intros x [<-|X] KX; [contradiction|]. apply I2; assumption.
Qed.

Lemma chosen_nil_inv {A B} (k : A -> Prop) (r : A -> B -> Prop) l l' : chosen k r l l' -> (l' = [] <-> forall a, In a l -> ~ k a).
Proof.
  intros C. induction C as [|a b l l' K R C IH|a l l' K C IH].
  - split; [intros _ ? []|reflexivity].
  - split; [discriminate|]. intros H. exfalso. apply (H a); [left; reflexivity|exact K].
  - rewrite IH. split; [intros H x [<-|X]; [exact K|apply H, X]|]. intros H x X. apply H. right; exact X.
Qed.

Lemma ofold_ext {A B} (f g : A -> B -> outcome A) : forall l a, (forall x a, In x l -> f a x = g a x) -> ofold f l a = ofold g l a.
Proof.
  induction l as [|x l IH]; intros a H; [reflexivity|]. cbn [ofold]. rewrite H by (left; reflexivity).
  destruct (g a x); [|reflexivity|reflexivity]. cbn [obind]. apply IH. intros. apply H. right; assumption.
Qed.

(** A loop reading the elements of an array in turn. *)
Lemma ofold_elems {A B} (l : list B) (f : A -> B -> outcome A) : forall a,
  ofold (fun a i => let* x := aget l i in f a x) (zseq (Z.of_nat (length l))) a = ofold f l a.
Proof.
  induction l as [|x l IH] using rev_ind; intros a; [reflexivity|].
  rewrite app_length. cbn [length]. rewrite Nat2Z.inj_add. cbn. rewrite zseq_S by lia. rewrite !ofold_app.
  assert (E : ofold (fun a i => let* x0 := aget (l ++ [x]) i in f a x0) (zseq (Z.of_nat (length l))) a = ofold f l a).
  { rewrite <- IH. apply ofold_ext. intros i b I. apply zseq_In in I. unfold aget. destruct (i <? 0); [reflexivity|].
    rewrite nth_error_app1 by lia. reflexivity. }
  rewrite E. destruct (ofold f l a); [|reflexivity|reflexivity]. cbn [obind ofold].
  unfold aget. destruct (Z.of_nat (length l) <? 0) eqn:Q; [lia|]. rewrite Nat2Z.id, nth_error_app2, Nat.sub_diag by lia. reflexivity.
Qed.

(** ** One cell of the new raster *)
Definition usable {T} (r : raster T) : Prop := (exists ix, compact r ix) \/ full_grid r.

(** Row-major number of the cell with index [g], as 4235-4243 find it. *)
Definition number {T} (r : raster T) (g : Z) : outcome Z :=
  if isnull (r_pos r) || isnull (r_posidx r) then Ok g else let* ix := deref (r_posidx r) in aget ix g.

Lemma index_value {T} (r : raster T) i j g n : storage r n -> n = r_ncells r -> inside r i j -> 0 <= g < r_ncells r ->
  (forall lyr, layer_ok r lyr -> GetValue r i j lyr = read_cell r g lyr) -> forall lyr, GetValueByIndex r g lyr = GetValue r i j lyr.
Proof.
  intros S E I G H lyr. destruct (ValidateLayer r lyr) eqn:V.
  - apply vl_true in V. rewrite H by exact V. unfold GetValueByIndex. rewrite (storage_valid _ _ S). apply vl_true in V. rewrite V.
    assert (Q : ValidateIndex r g = true) by (unfold ValidateIndex; lia). rewrite Q. reflexivity.
  - unfold GetValueByIndex. rewrite V, orb_true_r. apply vl_false in V. symmetry. apply GetValue_invalid. tauto.
Qed.

Lemma cell_cases {T} (r : raster T) i j : usable r -> inside r i j ->
  (exists g, indexes r g (i, j) /\ number r g = Ok (i * r_cols r + j)) \/
  (GetPosition r i j = Ok (-1) /\ GetValue r i j 1 = Ok (r_nodata r)).
Proof.
  intros [(ix & C)|F] I.
  - pose proof C as (R1 & C1 & L1 & N1 & N2 & S & CA & PI & PO & SO & FO).
    destruct (GetPosition_compact r ix i j C I) as [(g & P & B & N)|(P & N)].
    + left. exists g. split.
      * split; [exact I|]. split; [exact B|]. split; [exact P|]. cbn [fst snd]. apply (index_value r i j g (r_ncells r)); auto.
        intros lyr LO. destruct (GetValue_compact r ix i j lyr C I LO) as [(g' & P' & _ & _ & V)|(P' & _)]; [|rewrite P in P'; injection P' as ->; clear - B; lia].
        rewrite P in P'. injection P' as <-. exact V.
      * unfold number. rewrite PO, PI. cbn [isnull orb deref obind]. apply aget_ok; [lia|exact N].
    + right. split; [exact P|]. destruct (GetValue_compact r ix i j 1 C I) as [(g' & P' & B & _)|(_ & _ & V)]; [split; lia|rewrite P in P'; injection P' as <-; lia|exact V].
  - left. pose proof F as (R1 & C1 & L1 & N1 & S & PO & PI). pose proof I as [I1 I2]. exists (i * r_cols r + j). split.
    + split; [exact I|]. split; [rewrite N1; nia|]. split; [apply GetPosition_full; assumption|]. cbn [fst snd].
      apply (index_value r i j _ _ S); auto; [rewrite N1; nia|]. intros lyr LO. apply GetValue_full; assumption.
    + unfold number. rewrite PO. reflexivity.
Qed.

(** ** Looking a mask cell up in the new raster *)
Section Check.
Context {T M : Type}.
Variable feq : T -> T -> bool.
Variables (m : raster M) (r : raster T) (a b : Z).
Hypothesis US : usable r.
Hypothesis IN : r_init r = true.
Hypothesis CS : (0 < r_cs r)%Q.
Hypothesis HK : header_known (geo_of r).
Hypothesis ND : feq (r_nodata r) (r_nodata r) = true.
Hypothesis GEO : forall row col, (fst (centre r (row - a) (col - b)) == fst (centre m row col) /\
                                  snd (centre r (row - a) (col - b)) == snd (centre m row col))%Q.

Definition moved (rc : Z * Z) : Z * Z := (fst rc - a, snd rc - b).

Let RC : 0 < r_rows r /\ 0 < r_cols r.
Proof. destruct US as [(ix & C)|F]; [destruct C as (? & ? & _)|destruct F as (? & ? & _)]; auto. Qed.

Lemma check_inside rc : inside r (fst (moved rc)) (snd (moved rc)) ->
  check_cell feq m r rc =
    let* p := GetPosition r (fst (moved rc)) (snd (moved rc)) in
    if p <? 0 then Ok None
    else let* nd := IsNoData feq r (fst (moved rc)) (snd (moved rc)) 1 in
         if nd then Ok None else let* g := GetPosition r (fst (moved rc)) (snd (moved rc)) in Ok (Some (moved rc, g)).
Proof.
  destruct rc as [row col]. cbn [moved fst snd]. intros I. unfold check_cell. cbn [fst snd].
  destruct (GEO row col) as [GX GY]. change (GetCoordinateByRowCol (geo_of m) row col) with (centre m row col).
  assert (CG : cell_of_grid (geo_of r) (row - a) (col - b)) by exact I.
  pose proof (centre_in_cell (geo_of r) CS (row - a) (col - b)) as IC. pose proof (centre_ge (geo_of r) CS (row - a) (col - b) CG) as [G1 G2].
  change (GetCoordinateByRowCol (geo_of r) (row - a) (col - b)) with (centre r (row - a) (col - b)) in IC, G1, G2.
  assert (IC' : in_cell (geo_of r) (row - a) (col - b) (fst (centre m row col)) (snd (centre m row col))).
  { unfold in_cell in *. rewrite <- GX, <- GY. exact IC. }
  rewrite (position_xy r (row - a) (col - b)) by auto.
  assert (G1' : (g_xll (geo_of r) <= fst (centre m row col))%Q) by (rewrite <- GX; exact G1).
  assert (G2' : (g_yll (geo_of r) <= snd (centre m row col))%Q) by (rewrite <- GY; exact G2).
  rewrite (by_coordinate (geo_of r) CS (row - a) (col - b) _ _ CG IC' G1' G2'). reflexivity.
Qed.

Lemma check_outside rc : ~ inside r (fst (moved rc)) (snd (moved rc)) -> check_cell feq m r rc = Ok None.
Proof.
  destruct rc as [row col]. cbn [moved fst snd]. intros I. unfold check_cell. cbn [fst snd].
  destruct (GEO row col) as [GX GY]. change (GetCoordinateByRowCol (geo_of m) row col) with (centre m row col).
  assert (P : GetPositionXY r (fst (centre m row col)) (snd (centre m row col)) = Ok (-2)).
  { unfold GetPositionXY. rewrite IN. cbn [negb]. destruct (_ || _ || _ || _ || _)%bool; [reflexivity|].
    assert (OUT : (fst (centre m row col) < x_min (geo_of r) \/ x_max (geo_of r) < fst (centre m row col) \/
                   snd (centre m row col) < y_min (geo_of r) \/ y_max (geo_of r) < snd (centre m row col))%Q).
    { geo (geo_of r). cbn [geo_of g_rows g_cols g_xll g_yll g_cs] in H, H0, H1, H2. set (x := fst (centre m row col)) in *. set (y := snd (centre m row col)) in *. cbn [centre fst snd] in GX, GY.
      set (x0 := x_min (geo_of r)) in *. set (x1 := x_max (geo_of r)) in *. set (y0 := y_min (geo_of r)) in *. set (y1 := y_max (geo_of r)) in *.
      assert (X : col - b < 0 \/ r_cols r <= col - b \/ r_rows r <= row - a \/ row - a < 0) by (unfold inside in I; clear - I; lia).
      pose proof (mul_le (geo_of r) CS) as ML. cbn [geo_of g_cs] in ML. clear - X ML CS H H0 H1 H2 GX GY.
      destruct X as [X|[X|[X|X]]].
      - left. pose proof (ML _ _ (inj_le (col - b) (-1) ltac:(lia))) as Q. change (inject_Z (-1)) with (-1)%Q in Q. lra.
      - right. left. pose proof (ML _ _ (inj_le (r_cols r) (col - b) ltac:(lia))) as Q. lra.
      - right. right. left. pose proof (ML _ _ (inj_le (r_rows r - (row - a) - 1) (-1) ltac:(lia))) as Q. change (inject_Z (-1)) with (-1)%Q in Q. lra.
      - right. right. right. pose proof (ML _ _ (inj_le (r_rows r) (r_rows r - (row - a) - 1) ltac:(lia))) as Q. lra. }
    destruct OUT as [O|[O|[O|O]]]; apply qltb_lt in O; rewrite O, ?orb_true_r; try reflexivity; destruct (_ || _)%bool; reflexivity. }
  rewrite P. reflexivity.
Qed.

Lemma check_cases rc : (shown feq r (moved rc) /\ exists g, indexes r g (moved rc) /\ number r g = Ok (fst (moved rc) * r_cols r + snd (moved rc)) /\
     check_cell feq m r rc = Ok (Some (moved rc, g))) \/
  (~ shown feq r (moved rc) /\ check_cell feq m r rc = Ok None).
Proof.
  destruct (ValidateRowCol r (fst (moved rc)) (snd (moved rc))) eqn:V.
  - apply vrc_true in V. rewrite (check_inside rc V). destruct (cell_cases r _ _ US V) as [(g & IX & NU)|(P & N)].
    + pose proof IX as (_ & B & P & GV). rewrite <- surjective_pairing in *. cbn [fst snd] in P. rewrite P. cbn [obind].
      destruct (g <? 0) eqn:Q; [lia|]. unfold IsNoData.
      assert (exists v, GetValue r (fst (moved rc)) (snd (moved rc)) 1 = Ok v) as (v & EV).
      { destruct US as [C|F]; apply GetValue_total; [right; left; exact C|left; exact F]. }
      rewrite EV. cbn [obind]. destruct (feq v (r_nodata r)) eqn:F.
      * right. split; [|reflexivity]. intros (v' & E' & F'). rewrite EV in E'. injection E' as <-. congruence.
      * left. split; [exists v; auto|]. exists g. auto.
    + right. rewrite P. cbn [obind]. split; [|reflexivity]. intros (v & E & F). rewrite N in E. injection E as <-. congruence.
  - apply vrc_false in V. right. split; [|apply check_outside; exact V]. intros (v & E & F).
    rewrite GetValue_invalid in E by tauto. injection E as <-. congruence.
Qed.
End Check.
