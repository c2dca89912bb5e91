(** Proofs about subsets: construction. *)
From Coq Require Import ZArith List Bool Lia Sorted ZifyBool ZifyNat Permutation.
From Verif Require Import Base ListLib RasterModel RasterSpec RasterProofs CoordModel SubsetModel SubsetSpec.
Import ListNotations.
Open Scope Z_scope.
Open Scope outcome_scope.

(** * Integer-keyed maps *)
Section ZMap.
Context {A : Type}.
Implicit Types m : list (Z * A).
Definition ksorted m := StronglySorted Z.lt (map fst m).

Lemma zfind_zput m k a k' : ksorted m -> zfind (zput m k a) k' = if k' =? k then Some a else zfind m k'.
Proof.
  unfold ksorted. induction m as [|[q b] m IH]; cbn [zput zfind map fst]; intros S; [reflexivity|].
  inversion S as [|? ? S' F]; subst.
  destruct (k <? q) eqn:L; cbn [zfind].
  - destruct (k' =? k) eqn:E; [reflexivity|reflexivity].
  - destruct (k =? q) eqn:E; cbn [zfind].
    + assert (k = q) by lia. subst. destruct (k' =? q); reflexivity.
    + destruct (k' =? q) eqn:E2.
      * destruct (k' =? k) eqn:E3; [lia|reflexivity].
      * apply IH. exact S'.
Qed.

Lemma zput_keys m k a x : In x (map fst (zput m k a)) <-> x = k \/ In x (map fst m).
Proof.
  induction m as [|[q b] m IH]; cbn [zput map fst In]; [intuition|].
  destruct (k <? q); cbn [map fst In]; [intuition|].
  destruct (k =? q) eqn:E; cbn [map fst In]; [assert (k = q) by lia; subst; intuition|]. rewrite IH. intuition.
Qed.

Lemma zput_sorted m k a : ksorted m -> ksorted (zput m k a).
Proof.
  unfold ksorted. induction m as [|[q b] m IH]; cbn [zput map fst]; intros S.
  - repeat constructor.
  - inversion S as [|? ? S' F]; subst. destruct (k <? q) eqn:L; cbn [map fst].
    + constructor; [exact S|]. constructor; [lia|]. eapply Forall_impl; [|exact F]. cbn. intros. lia.
    + destruct (k =? q) eqn:E; cbn [map fst].
      * assert (k = q) by lia. subst. constructor; assumption.
      * constructor; [apply IH; exact S'|]. apply Forall_forall. intros x Hx. apply zput_keys in Hx.
        rewrite Forall_forall in F. destruct Hx as [->|Hx]; [lia|apply F, Hx].
Qed.

Lemma zfind_In m k a : zfind m k = Some a -> In (k, a) m.
Proof.
  induction m as [|[q b] m IH]; cbn [zfind In]; [discriminate|]. destruct (k =? q) eqn:E; intros H.
  - left. f_equal; [lia|congruence].
  - right. apply IH, H.
Qed.

Lemma zfind_none m k : zfind m k = None <-> ~ In k (map fst m).
Proof.
  induction m as [|[q b] m IH]; cbn [zfind In map fst]; [intuition|].
  destruct (k =? q) eqn:E; [split; [discriminate|intros H; exfalso; apply H; left; lia]|].
  rewrite IH. split; intros H; [intros [?|?]; [lia|contradiction]|auto].
Qed.

Lemma In_zfind m k a : ksorted m -> In (k, a) m -> zfind m k = Some a.
Proof.
  unfold ksorted. induction m as [|[q b] m IH]; cbn [zfind In map fst]; [contradiction|].
  intros S [H|H]; inversion S as [|? ? S' F]; subst.
  - injection H as -> ->. rewrite Z.eqb_refl. reflexivity.
  - assert (In k (map fst m)) by (apply in_map_iff; exists (k, a); auto).
    rewrite Forall_forall in F. specialize (F k H0). destruct (k =? q) eqn:E; [lia|]. apply IH; assumption.
Qed.
End ZMap.

Lemma omapm_ok {A B} (f : A -> outcome B) (g : A -> B) l :
  (forall x, In x l -> f x = Ok (g x)) -> omapm f l = Ok (map g l).
Proof.
  induction l as [|a l IH]; intros H; [reflexivity|]. cbn [omapm map].
  rewrite (H a (or_introl eq_refl)). cbn [obind]. rewrite IH by (intros; apply H; right; assumption). reflexivity.
Qed.

Lemma nth_error_skipn {A} : forall n (l : list A) i, nth_error (skipn n l) i = nth_error l (n + i).
Proof. induction n; destruct l; cbn; intros; auto. destruct i; reflexivity. Qed.

(** A loop that sets element [i] in iteration [i]. *)
Lemma ofold_fill {A} (step : list A -> Z -> outcome (list A)) (f : Z -> A) n a :
  Z.of_nat (length a) = n ->
  (forall b i, 0 <= i < n -> length b = length a -> step b i = aset b i (f i)) ->
  ofold step (zseq n) a = Ok (map f (zseq n)).
Proof.
  intros L H.
  assert (G : forall m, 0 <= m <= n -> ofold step (zseq m) a = Ok (map f (zseq m) ++ skipn (Z.to_nat m) a)).
  { intros m [M0 M1]. revert M1. pattern m. apply natlike_ind; [| |exact M0].
    - intros _. rewrite zseq_0 by lia. reflexivity.
    - intros x X0 IH X1. unfold Z.succ. rewrite zseq_S by lia. rewrite ofold_app, IH by lia. cbn [obind ofold].
      rewrite H; [|lia|rewrite app_length, map_length, zseq_length, skipn_length; lia].
      assert (LL : length (map f (zseq x)) = Z.to_nat x) by (rewrite map_length, zseq_length; reflexivity).
      unfold aset. destruct (x <? 0) eqn:E; [lia|].
      destruct (Z.to_nat x <? length (map f (zseq x) ++ skipn (Z.to_nat x) a))%nat eqn:E2;
        [|rewrite app_length, LL, skipn_length in E2; lia].
      cbn [obind]. f_equal. rewrite map_app. cbn [map].
      apply nth_error_ext. intros i. rewrite upd_nth, app_length, LL, skipn_length.
      destruct (Nat.eqb_spec i (Z.to_nat x)) as [->|Ni].
      + destruct (Z.to_nat x <? Z.to_nat x + (length a - Z.to_nat x))%nat eqn:E3; [|lia]. cbn [andb].
        rewrite <- app_assoc, nth_error_app2 by lia. rewrite LL, Nat.sub_diag. reflexivity.
      + cbn [andb]. destruct (Nat.lt_ge_cases i (Z.to_nat x)) as [C|C].
        * rewrite <- app_assoc, !nth_error_app1 by lia. reflexivity.
        * rewrite <- app_assoc, !nth_error_app2 by lia. rewrite LL.
          rewrite nth_error_skipn.
          replace (i - Z.to_nat x)%nat with (S (i - Z.to_nat x - 1)) by lia. cbn [app nth_error].
          rewrite nth_error_skipn. f_equal. lia. }
  rewrite (G n) by lia. rewrite skipn_all2 by lia. rewrite app_nil_r. reflexivity.
Qed.

(** The same with two arrays. *)
Lemma ofold_fill2 {A B} (step : list A * list B -> Z -> outcome (list A * list B)) (f : Z -> A) (h : Z -> B) n a b :
  Z.of_nat (length a) = n -> Z.of_nat (length b) = n ->
  (forall x y i, 0 <= i < n -> length x = length a -> length y = length b ->
     step (x, y) i = let* x' := aset x i (f i) in let* y' := aset y i (h i) in Ok (x', y')) ->
  ofold step (zseq n) (a, b) = Ok (map f (zseq n), map h (zseq n)).
Proof.
  intros La Lb H.
  pose proof (ofold_fill (fun x i => aset x i (f i)) f n a La (fun _ _ _ _ => eq_refl)) as Fa.
  pose proof (ofold_fill (fun y i => aset y i (h i)) h n b Lb (fun _ _ _ _ => eq_refl)) as Fb.
  assert (G : forall l x y xr yr, Forall (fun i => 0 <= i < n) l -> length x = length a -> length y = length b ->
    ofold (fun x i => aset x i (f i)) l x = Ok xr -> ofold (fun y i => aset y i (h i)) l y = Ok yr ->
    ofold step l (x, y) = Ok (xr, yr)).
  { induction l as [|i l IH]; cbn [ofold]; intros x y xr yr F Lx Ly Hx Hy; [congruence|].
    inversion F; subst. rewrite H by assumption.
    destruct (aset x i (f i)) as [x'| |] eqn:Ex; try discriminate.
    destruct (aset y i (h i)) as [y'| |] eqn:Ey; try discriminate.
    cbn [obind] in *. apply IH; auto.
    - apply aset_inv in Ex. destruct Ex as (_ & ->). rewrite upd_length. exact Lx.
    - apply aset_inv in Ey. destruct Ey as (_ & ->). rewrite upd_length. exact Ly. }
  apply G with (3 := eq_refl); auto. apply Forall_forall. intros i Hi. apply zseq_In in Hi. exact Hi.
Qed.

Lemma map_nth_zseq {A} (l : list A) d : map (fun i => nth (Z.to_nat i) l d) (zseq (Z.of_nat (length l))) = l.
Proof.
  apply nth_error_ext. intros i. rewrite nth_error_map. destruct (Nat.lt_ge_cases i (length l)) as [L|L].
  - rewrite zseq_nth_nat by lia. cbn [option_map]. rewrite Nat2Z.id. symmetry. apply nth_error_nth'. exact L.
  - rewrite (proj2 (nth_error_None _ _)) by (rewrite zseq_length; lia). symmetry. apply nth_error_None. exact L.
Qed.

Lemma map_nth_f {A B} (f : A -> B) l d : map (fun i => f (nth (Z.to_nat i) l d)) (zseq (Z.of_nat (length l))) = map f l.
Proof. rewrite <- (map_map (fun i => nth (Z.to_nat i) l d) f). f_equal. apply map_nth_zseq. Qed.

Lemma combine_zseq {A} (l : list A) d :
  combine (zseq (Z.of_nat (length l))) l = map (fun i => (i, nth (Z.to_nat i) l d)) (zseq (Z.of_nat (length l))).
Proof.
  rewrite <- (map_nth_zseq l d) at 2.
  generalize (zseq (Z.of_nat (length l))). induction l0 as [|x l0 IH]; cbn; [reflexivity|]. f_equal. exact IH.
Qed.

Lemma ofold_map {A B C} (f : A -> C -> outcome A) (g : B -> C) l : forall a,
  ofold f (map g l) a = ofold (fun a b => f a (g b)) l a.
Proof. induction l; cbn; intros; auto. destruct (f a0 (g a)); cbn; auto. Qed.

(** * Building *)
Section Build.
Context {T D : Type}.
Variable feq : T -> T -> bool.
Variable toint : T -> option Z.
Variable r : raster T.
Variable ix : list Z.
Variable groups : list (Z * Z).
Hypothesis C : compact r ix.
Hypothesis FIT : zones_fit feq toint r.

Definition key (vi : Z) : option Z :=
  match read_cell r vi 1 with
  | Ok v => if feq v (r_nodata r) then None else option_map (group_of groups) (toint v)
  | _ => None
  end.
Definition keyb (k vi : Z) : bool := match key vi with Some k' => k' =? k | None => false end.
Definition cells (k : Z) (l : list Z) : list Z := filter (keyb k) l.

Lemma keyb_true k vi : keyb k vi = true <-> key vi = Some k.
Proof. unfold keyb. destruct (key vi) as [k'|]; [|split; discriminate]. split; intros H; [f_equal; lia|injection H as ->; lia]. Qed.

Lemma in_group_key k vi : in_group feq toint r groups k vi <-> 0 <= vi < r_ncells r /\ key vi = Some k.
Proof.
  unfold in_group, key. split.
  - intros (B & v & z & E & F & Z & G). split; [exact B|]. rewrite E, F, Z. cbn. f_equal. unfold group_of.
    destruct G as [->|[-> ->]]; reflexivity.
  - intros [B H]. split; [exact B|]. destruct (read_cell r vi 1) as [v| |] eqn:E; try discriminate.
    destruct (feq v (r_nodata r)) eqn:F; [discriminate|]. destruct (toint v) as [z|] eqn:Z; [|discriminate].
    exists v, z. cbn in H. injection H as H. unfold group_of in H. repeat split; auto.
    destruct (zfind groups z) as [k'|]; [left; congruence|right; auto].
Qed.

Definition prow (vi : Z) : Z := nth (Z.to_nat vi) ix 0 / r_cols r.
Definition pcol (vi : Z) : Z := nth (Z.to_nat vi) ix 0 mod r_cols r.

Lemma cols_pos : 0 < r_cols r.
Proof. apply C. Qed.
Lemma n_ix : r_ncells r = Z.of_nat (length ix).
Proof. apply C. Qed.

Lemma ix_at vi : 0 <= vi < r_ncells r -> aget ix vi = Ok (nth (Z.to_nat vi) ix 0) /\ 0 <= nth (Z.to_nat vi) ix 0 < r_rows r * r_cols r.
Proof.
  intros B. assert (L : (Z.to_nat vi < length ix)%nat) by (rewrite n_ix in B; lia). split.
  - apply aget_ok; [lia|]. apply nth_error_nth'. exact L.
  - pose proof (nth_In ix 0 L) as I. destruct C as (_&_&_&_&_&_&_&_&_&_&F). rewrite Forall_forall in F. apply F, I.
Qed.

Lemma cell_at_p vi row col : 0 <= vi < r_ncells r -> cell_at r vi row col <-> row = prow vi /\ col = pcol vi.
Proof.
  intros B. destruct C as (_&_&_&_&N&_&_&_&P&_). unfold cell_at. rewrite P.
  assert (E : nth_error (map (fun k => (k / r_cols r, k mod r_cols r)) ix) (Z.to_nat vi) = Some (prow vi, pcol vi)).
  { rewrite nth_error_map, (nth_error_nth' ix 0) by lia. reflexivity. }
  split.
  - intros (ps & H & G). injection H as <-. rewrite E in G. injection G as <- <-. auto.
  - intros [-> ->]. eexists. split; [reflexivity|exact E].
Qed.

Definition ext (s : subset D) (vi : Z) : subset D := extend s (prow vi) (pcol vi).
Definition wsub (c : list Z) : subset D :=
  match c with
  | [] => NewSubset 0 0 0 0
  | a :: _ => fold_left ext c (NewSubset (prow a) (prow a) (pcol a) (pcol a))
  end.

Lemma wsub_snoc c vi : c <> [] -> wsub (c ++ [vi]) = ext (wsub c) vi.
Proof. destruct c as [|a c]; [congruence|]. intros _. cbn [wsub app]. rewrite app_comm_cons, fold_left_app. reflexivity. Qed.

Definition opt {A} (f : list Z -> A) (c : list Z) : option A := match c with [] => None | _ => Some (f c) end.

Definition inv (l : list Z) (st : list (Z * subset D) * list (Z * list Z)) : Prop :=
  ksorted (fst st) /\ ksorted (snd st) /\
  (forall k, zfind (fst st) k = opt wsub (cells k l)) /\ (forall k, zfind (snd st) k = opt (fun c => c) (cells k l)).

Lemma step_inv l st vi : inv l st -> 0 <= vi < r_ncells r ->
  exists st', build_step feq toint r ix groups st vi = Ok st' /\ inv (l ++ [vi]) st'.
Proof.
  intros (S1 & S2 & I1 & I2) B. destruct C as (CR & CC & CL & CN & CI & CS & CK & CP & CQ & CO & CF).
  pose proof cols_pos as PC. destruct (ix_at vi B) as [IX IB].
  destruct (read_storage r (r_ncells r) vi 1 CS B ltac:(unfold layer_ok; lia)) as [v RV].
  unfold build_step, GetValueByIndex.
  rewrite (storage_valid r _ CS), (proj2 (vi_true r vi) B), (proj2 (vl_true r 1) ltac:(unfold layer_ok; lia)).
  cbn [negb orb]. rewrite RV. cbn [obind].
  assert (KE : forall k, cells k (l ++ [vi]) = cells k l ++ (if keyb k vi then [vi] else [])).
  { intros k. unfold cells. rewrite filter_app. cbn [filter]. reflexivity. }
  destruct (feq v (r_nodata r)) eqn:F.
  - exists st. split; [reflexivity|].
    assert (KN : key vi = None) by (unfold key; rewrite RV, F; reflexivity).
    assert (forall k, cells k (l ++ [vi]) = cells k l).
    { intros k. rewrite KE. unfold keyb. rewrite KN. apply app_nil_r. }
    split; [exact S1|]. split; [exact S2|]. split; intros k; rewrite H; auto.
  - destruct (toint v) as [z|] eqn:TZ; [|exfalso; exact (FIT vi v B RV F TZ)].
    assert (KS : key vi = Some (group_of groups z)) by (unfold key; rewrite RV, F, TZ; reflexivity).
    set (g := group_of groups z) in *. rewrite IX. cbn [obind].
    destruct (r_cols r =? 0) eqn:E0; [lia|]. eexists. split; [reflexivity|].
    rewrite Z.quot_div_nonneg, Z.rem_mod_nonneg by lia. fold (prow vi) (pcol vi).
    split; [apply zput_sorted, S1|]. split; [apply zput_sorted, S2|]. cbn [fst snd].
    rewrite I1, I2. split; intros k; rewrite zfind_zput by assumption; rewrite KE.
    + destruct (k =? g) eqn:Ek.
      * assert (k = g) by lia. subst k. rewrite (proj2 (keyb_true g vi) KS).
        destruct (cells g l) as [|a c] eqn:Ec; [reflexivity|].
        cbn [opt]. change (opt wsub ((a :: c) ++ [vi])) with (Some (wsub ((a :: c) ++ [vi]))). rewrite wsub_snoc by discriminate. reflexivity.
      * destruct (keyb k vi) eqn:Kb; [apply keyb_true in Kb; rewrite KS in Kb; injection Kb; lia|]. rewrite app_nil_r. apply I1.
    + destruct (k =? g) eqn:Ek.
      * assert (k = g) by lia. subst k. rewrite (proj2 (keyb_true g vi) KS).
        destruct (cells g l) as [|a c] eqn:Ec; reflexivity.
      * destruct (keyb k vi) eqn:Kb; [apply keyb_true in Kb; rewrite KS in Kb; injection Kb; lia|]. rewrite app_nil_r. apply I2.
Qed.

Lemma loop_inv : exists st, ofold (build_step feq toint r ix groups) (zseq (r_ncells r)) ([], []) = Ok st /\ inv (zseq (r_ncells r)) st.
Proof.
  assert (G : forall m, 0 <= m <= r_ncells r -> exists st, ofold (build_step feq toint r ix groups) (zseq m) ([], []) = Ok st /\ inv (zseq m) st).
  { intros m [M0 M1]. revert M1. pattern m. apply natlike_ind; [| |exact M0].
    - intros _. rewrite zseq_0 by lia. exists ([], []). split; [reflexivity|].
      split; [constructor|]. split; [constructor|]. split; intros k; reflexivity.
    - intros x X0 IH X1. destruct (IH ltac:(lia)) as (st & E & I). unfold Z.succ. rewrite zseq_S by lia.
      destruct (step_inv _ st x I ltac:(lia)) as (st' & E' & I'). exists st'. split; [|exact I'].
      rewrite ofold_app, E. cbn [obind ofold]. rewrite E'. reflexivity. }
  apply G. rewrite n_ix. lia.
Qed.

Lemma fold_ext_fields c : forall s0 : subset D, let s := fold_left ext c s0 in
  s_usable s = s_usable s0 /\ s_n s = s_n s0 + Z.of_nat (length c) /\ s_lyrs s = s_lyrs s0 /\
  s_data s = s_data s0 /\ s_data2 s = s_data2 s0 /\ s_global s = s_global s0.
Proof.
  induction c as [|a c IH]; intros s0; cbn [fold_left length].
  - cbn. repeat split; lia.
  - destruct (IH (ext s0 a)) as (A & B & E & F & G & H). cbn zeta in *. rewrite A, B, E, F, G, H.
    unfold ext, extend; cbn [s_usable s_n s_lyrs s_data s_data2 s_global]. repeat split; lia.
Qed.

Lemma fold_ext_box c : forall s0 : subset D, let s := fold_left ext c s0 in
  (s_srow s <= s_srow s0 /\ s_erow s0 <= s_erow s /\ s_scol s <= s_scol s0 /\ s_ecol s0 <= s_ecol s) /\
  (forall vi, In vi c -> s_srow s <= prow vi <= s_erow s /\ s_scol s <= pcol vi <= s_ecol s) /\
  (s_srow s = s_srow s0 \/ exists vi, In vi c /\ s_srow s = prow vi) /\
  (s_erow s = s_erow s0 \/ exists vi, In vi c /\ s_erow s = prow vi) /\
  (s_scol s = s_scol s0 \/ exists vi, In vi c /\ s_scol s = pcol vi) /\
  (s_ecol s = s_ecol s0 \/ exists vi, In vi c /\ s_ecol s = pcol vi).
Proof.
  induction c as [|a c IH]; intros s0; cbn [fold_left]; cbn zeta.
  - split; [lia|]. split; [intros vi []|]. auto 6.
  - destruct (IH (ext s0 a)) as ((A1 & A2 & A3 & A4) & B & E1 & E2 & E3 & E4). cbn zeta in *.
    set (s := fold_left ext c (ext s0 a)) in *. clearbody s.
    unfold ext, extend in *; cbn [s_srow s_erow s_scol s_ecol] in *.
    assert (Q : (s_srow s <= s_srow s0 /\ s_erow s0 <= s_erow s /\ s_scol s <= s_scol s0 /\ s_ecol s0 <= s_ecol s) /\
      (s_srow s <= prow a <= s_erow s /\ s_scol s <= pcol a <= s_ecol s)).
    { clear -A1 A2 A3 A4. destruct (prow a <? s_srow s0) eqn:?, (s_erow s0 <? prow a) eqn:?, (pcol a <? s_scol s0) eqn:?, (s_ecol s0 <? pcol a) eqn:?; lia. }
    split; [apply Q|]. split; [|split; [|split; [|split]]].
    + intros vi [->|H]; [apply Q|apply B, H].
    + destruct E1 as [E|(v & I & E)]; [|right; exists v; split; [right; exact I|exact E]].
      destruct (prow a <? s_srow s0); [right; exists a; split; [left; reflexivity|exact E]|left; exact E].
    + destruct E2 as [E|(v & I & E)]; [|right; exists v; split; [right; exact I|exact E]].
      destruct (s_erow s0 <? prow a); [right; exists a; split; [left; reflexivity|exact E]|left; exact E].
    + destruct E3 as [E|(v & I & E)]; [|right; exists v; split; [right; exact I|exact E]].
      destruct (pcol a <? s_scol s0); [right; exists a; split; [left; reflexivity|exact E]|left; exact E].
    + destruct E4 as [E|(v & I & E)]; [|right; exists v; split; [right; exact I|exact E]].
      destruct (s_ecol s0 <? pcol a); [right; exists a; split; [left; reflexivity|exact E]|left; exact E].
Qed.

Lemma wsub_fields c : let s := wsub c in
  s_usable s = true /\ s_n s = Z.of_nat (length c) /\ s_lyrs s = -1 /\ s_data s = None /\ s_data2 s = None.
Proof.
  destruct c as [|a c]; cbn zeta; [cbn; auto|]. unfold wsub.
  destruct (fold_ext_fields (a :: c) (NewSubset (prow a) (prow a) (pcol a) (pcol a))) as (A & B & E & F & G & _). cbn zeta in *.
  rewrite A, B, E, F, G. cbn [NewSubset s_usable s_n s_lyrs s_data s_data2]. repeat split; lia.
Qed.

Lemma wsub_box c : c <> [] -> let s := wsub c in
  (forall vi, In vi c -> s_srow s <= prow vi <= s_erow s /\ s_scol s <= pcol vi <= s_ecol s) /\
  (exists vi, In vi c /\ s_srow s = prow vi) /\ (exists vi, In vi c /\ s_erow s = prow vi) /\
  (exists vi, In vi c /\ s_scol s = pcol vi) /\ (exists vi, In vi c /\ s_ecol s = pcol vi).
Proof.
  destruct c as [|a c]; [congruence|]. intros _. cbn zeta. unfold wsub.
  destruct (fold_ext_box (a :: c) (NewSubset (prow a) (prow a) (pcol a) (pcol a))) as (_ & B & E1 & E2 & E3 & E4). cbn zeta in *.
  cbn [NewSubset s_srow s_erow s_scol s_ecol] in E1, E2, E3, E4.
  split; [exact B|]. split; [|split; [|split]].
  - destruct E1 as [E|E]; [exists a; split; [left; reflexivity|exact E]|exact E].
  - destruct E2 as [E|E]; [exists a; split; [left; reflexivity|exact E]|exact E].
  - destruct E3 as [E|E]; [exists a; split; [left; reflexivity|exact E]|exact E].
  - destruct E4 as [E|E]; [exists a; split; [left; reflexivity|exact E]|exact E].
Qed.

Definition lp_of (s : subset D) (c : list Z) : list (Z * Z) :=
  map (fun vi => (prow vi - s_srow s, pcol vi - s_scol s)) c.
Definition li_of (s : subset D) (c : list Z) : list Z :=
  map (fun vi => (prow vi - s_srow s) * (s_ecol s - s_scol s + 1) + (pcol vi - s_scol s)) c.
Definition with_global (c : list Z) : subset D := set_global (wsub c) (Some c).
Definition final (c : list Z) : subset D := set_local (with_global c) (Some (lp_of (wsub c) c)) (Some (li_of (wsub c) c)).

Definition all := zseq (r_ncells r).

Lemma fill_global_ok st k s : inv all st -> In (k, s) (fst st) ->
  fill_global (snd st) (k, s) = Ok (k, with_global (cells k all)) /\ cells k all <> [].
Proof.
  intros (S1 & S2 & I1 & I2) H. apply In_zfind in H; [|exact S1]. rewrite I1 in H.
  unfold fill_global. cbn [fst snd]. rewrite I2.
  destruct (cells k all) as [|a c] eqn:E; [discriminate|]. split; [|discriminate]. cbn [opt] in *. assert (HS : s = wsub (a :: c)) by congruence. rewrite HS. clear HS H.
  destruct (wsub_fields (a :: c)) as (_ & N & _). cbn zeta in N.
  unfold init1d. rewrite N. destruct (Z.of_nat (length (a :: c)) <=? 0) eqn:L; [cbn [length] in L; lia|].
  rewrite (combine_zseq (a :: c) 0), ofold_map.
  rewrite (ofold_fill _ (fun i => nth (Z.to_nat i) (a :: c) 0)).
  - cbn [obind]. rewrite map_nth_zseq. reflexivity.
  - rewrite repeat_length. lia.
  - intros b i _ _. reflexivity.
Qed.

Lemma fill_local_ok k c : c <> [] -> Forall (fun vi => 0 <= vi < r_ncells r) c ->
  fill_local r ix (k, with_global c) = Ok (k, final c).
Proof.
  intros NE F. unfold fill_local. cbn [fst snd]. unfold with_global at 1. cbn [set_global s_global deref obind].
  destruct (wsub_fields c) as (_ & N & _). cbn zeta in N.
  change (s_n (with_global c)) with (s_n (wsub c)). rewrite N.
  change (s_ecol (with_global c)) with (s_ecol (wsub c)). change (s_scol (with_global c)) with (s_scol (wsub c)).
  change (s_srow (with_global c)) with (s_srow (wsub c)).
  assert (LC : (0 < length c)%nat) by (destruct c; [congruence|cbn; lia]).
  unfold init1d, init2d. destruct (Z.of_nat (length c) <? 0) eqn:E1; [lia|]. destruct (Z.of_nat (length c) <=? 0) eqn:E2; [lia|].
  pose proof cols_pos as PC.
  rewrite (ofold_fill2 _ (fun i => (prow (nth (Z.to_nat i) c 0) - s_srow (wsub c), pcol (nth (Z.to_nat i) c 0) - s_scol (wsub c)))
     (fun i => (prow (nth (Z.to_nat i) c 0) - s_srow (wsub c)) * (s_ecol (wsub c) - s_scol (wsub c) + 1) + (pcol (nth (Z.to_nat i) c 0) - s_scol (wsub c)))).
  - cbn [obind fst snd]. do 2 f_equal. unfold final. f_equal; f_equal.
    + apply (map_nth_f (fun vi => (prow vi - s_srow (wsub c), pcol vi - s_scol (wsub c)))).
    + apply (map_nth_f (fun vi => (prow vi - s_srow (wsub c)) * (s_ecol (wsub c) - s_scol (wsub c) + 1) + (pcol vi - s_scol (wsub c)))).
  - rewrite repeat_length. lia.
  - rewrite repeat_length. lia.
  - intros x y i Bi _ _. rewrite (aget_ok c i (nth (Z.to_nat i) c 0)) by (try apply nth_error_nth'; lia). cbn [obind].
    rewrite Forall_forall in F. pose proof (F _ (nth_In c 0 (n := Z.to_nat i) ltac:(lia))) as Bv.
    destruct (ix_at _ Bv) as [IX IB]. rewrite IX. cbn [obind]. destruct (r_cols r =? 0) eqn:E0; [lia|].
    cbn [fst snd]. rewrite Z.quot_div_nonneg, Z.rem_mod_nonneg by lia. reflexivity.
Qed.

Lemma cells_range k : Forall (fun vi => 0 <= vi < r_ncells r) (cells k all).
Proof. apply Forall_forall. intros vi H. apply filter_In in H. destruct H as [H _]. apply zseq_In in H. exact H. Qed.

Lemma build_all : exists subs : list (Z * subset D),
  (let* st := ofold (build_step feq toint r ix groups) all ([], []) in
   let* s1 := omapm (fill_global (snd st)) (fst st) in
   let* s2 := omapm (fill_local r ix) s1 in Ok s2) = Ok subs /\
  ksorted subs /\ (forall k, zfind subs k = opt final (cells k all)).
Proof.
  destruct loop_inv as (st & E & I). fold all in E, I. rewrite E. cbn [obind].
  rewrite (omapm_ok _ (fun ks => (fst ks, with_global (cells (fst ks) all)))).
  2:{ intros [k s] H. apply (fill_global_ok st k s I H). }
  cbn [obind]. rewrite (omapm_ok _ (fun ks => (fst ks, final (cells (fst ks) all)))).
  2:{ intros [k s] H. apply in_map_iff in H. destruct H as ([k' s'] & H & Hin). cbn [fst] in H. injection H as <- <-.
      cbn [fst]. apply fill_local_ok; [apply (fill_global_ok st k' s' I Hin)|apply cells_range]. }
  cbn [obind]. rewrite map_map. cbn [fst]. eexists. split; [reflexivity|].
  destruct I as (S1 & S2 & I1 & I2). split.
  - unfold ksorted in *. rewrite map_map. cbn [fst]. rewrite (map_ext _ fst) by reflexivity. exact S1.
  - intros k. specialize (I1 k). revert I1. clear S1.
    induction (fst st) as [|[q s] l IH]; cbn [map zfind fst]; intros H.
    + destruct (cells k all); [reflexivity|discriminate].
    + destruct (k =? q) eqn:Ek; [|apply IH, H]. assert (k = q) by lia. subst q.
      destruct (cells k all); [discriminate|reflexivity].
Qed.
End Build.
