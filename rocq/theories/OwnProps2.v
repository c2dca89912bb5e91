(** C56 (continued), C85-C87: memory of rasters and subsets. *)
From Coq Require Import List Bool Arith Lia Permutation.
From Verif Require Import Base OwnModel OwnSpec OwnProofs OwnProofs2 OwnProofs3 OwnProofs4 OwnProofs5 OwnProofs6 OwnProps.
Import ListNotations.

(** The state after making a raster and reading another with it as a mask. *)
Definition masked_pair (e : bool) (n lv : nat) : world :=
  mkWorld (mkHeap 6 [(5, lv); (4, lv); (3, lv); (2, lv)]) 2
    [(0, mkObj (Some 2) None (Some 3) (Some 4) true true false false lv 1 n (Some (repeat None 6)) [] None false);
     (1, mkObj (Some 5) None (Some 3) (Some 4) true false false false lv 1 n (Some (repeat None 6)) [] (Some 0) e)].
Lemma run_masked n n2 c e l t : lies_within l -> 
  run nothing (New (S n) :: ReadMasked false (S n2) 1 0 c e l :: t) = run (masked_pair e (S n) (l_valid l)) t.
Proof.
  intros (A & B & C & D). destruct l as [la lw le lc lg lv ls]. cbn in A, B, C, D. subst. destruct lv as [ | lv]; [lia | ].
  assert (E : run nothing [New (S n); ReadMasked false (S n2) 1 0 c e (mkLie true true true lc lg (S lv) ls)] = Ok (masked_pair e (S n) (S lv))).
  { destruct c, e; repeat go1; reflexivity. }
  cbn [run] in *. destruct (step nothing (New (S n))) as [w | | ]; try discriminate. cbn [obind] in *.
  destruct (step w _) as [w' | | ]; try discriminate. cbn [obind] in *. now injection E as ->.
Qed.
Ltac done := lazymatch goal with |- ex _ => eexists; reflexivity | |- _ => reflexivity end.
(** Handing positions to a masked raster releases those of its mask. *)
Theorem C56_given_refuted : forall n n2 c e l, 1 <= n -> 1 <= n2 -> lies_within l ->
  (exists w, run nothing [New n; ReadMasked false n2 1 0 c e l; Give 1 (l_valid l)] = Ok w)
  /\ run nothing [New n; ReadMasked false n2 1 0 c e l; Give 1 (l_valid l); Delete 0] = UB.
Proof.
  intros n n2 c e l H1 H2 Hl. destruct n as [ | n], n2 as [ | n2]; try lia. rewrite !run_masked by exact Hl.
  destruct Hl as (_ & _ & _ & D). destruct (l_valid l) as [ | lv]; [lia | ].
  split; repeat go1; done.
Qed.
Print Assumptions C56_given_refuted.

(** So does setting a masked raster to the extent of its mask. *)
Theorem C56_extent_refuted : forall n n2 c l l2, 1 <= n -> 1 <= n2 -> lies_within l -> l_any l2 = true ->
  (exists w, run nothing [New n; ReadMasked false n2 1 0 c false l; MaskAgain 1 l2] = Ok w)
  /\ run nothing [New n; ReadMasked false n2 1 0 c false l; MaskAgain 1 l2; Use 0] = UB.
Proof.
  intros n n2 c l l2 H1 H2 Hl A2. destruct n as [ | n], n2 as [ | n2]; try lia. rewrite !run_masked by exact Hl.
  destruct Hl as (_ & _ & _ & D). destruct (l_valid l) as [ | lv]; [lia | ].
  destruct l2 as [la2 lw2 le2 lc2 lg2 lv2 ls2]. cbn in A2. subst.
  destruct lw2, le2, lc2 as [ | lc2]; (split; repeat go1; done).
Qed.
Print Assumptions C56_extent_refuted.

(** The state after making a raster of a mask and values. *)
Definition values_pair (two : bool) (n k lyrs : nat) : world :=
  mkWorld (mkHeap 5 [(4, k); (3, k); (2, k); (1, k)]) 2
    [(0, mkObj (Some 1) None (Some 2) (Some 3) true true false false k 1 n (Some (repeat None 6)) [] None false);
     (1, mkObj (if two then None else Some 4) (if two then Some 4 else None) (Some 2) (Some 3) false false two false k lyrs n (Some (repeat None 6)) [] (Some 0) true)].
Lemma run_values two n k lyrs t :
  run nothing (New (S n) :: WithMask two 0 (S k) (S k) lyrs :: t) = run (values_pair two (S n) (S k) lyrs) t.
Proof.
  assert (E : run nothing [New (S n); WithMask two 0 (S k) (S k) lyrs] = Ok (values_pair two (S n) (S k) lyrs)).
  { destruct two; repeat (go1; unfold FromMask); reflexivity. }
  cbn [run] in *. destruct (step nothing (New (S n))) as [w | | ]; try discriminate. cbn [obind] in *.
  destruct (step w _) as [w' | | ]; try discriminate. cbn [obind] in *. now injection E as ->.
Qed.

(** So does asking a raster made of a mask and values for its own positions. *)
Theorem C56_values_refuted : forall two n k lyrs l, 1 <= n -> 1 <= k -> l_any l = true ->
  (exists w, run nothing [New n; WithMask two 0 k k lyrs; CalcMasked 1 l] = Ok w)
  /\ run nothing [New n; WithMask two 0 k k lyrs; CalcMasked 1 l; Use 0] = UB.
Proof.
  intros two n k lyrs l H1 H2 A. destruct n as [ | n], k as [ | k]; try lia. rewrite !run_values.
  destruct l as [la lw le lc lg lv ls]. cbn in A. subst.
  destruct two, lw, le, lc as [ | lc]; (split; repeat go1; done).
Qed.
Print Assumptions C56_values_refuted.

(** A raster made of a mask and values reads beyond its values when the mask has
    cells without a value. *)
Theorem C56_read_refuted : forall two n k lyrs, 1 <= k < n ->
  run nothing [New n; WithMask two 0 k k lyrs; Use 1] = UB.
Proof.
  intros two n k lyrs H. destruct n as [ | n], k as [ | k]; try lia. assert (D : (n <=? k) = false) by (apply Nat.leb_gt; lia).
  rewrite run_values. destruct two; repeat (go1; rewrite ?D); reflexivity.
Qed.
Print Assumptions C56_read_refuted.

(** A mask must be kept as long as the rasters read with it. *)
Theorem C56_order_refuted : forall n n2 c e l, 1 <= n -> 1 <= n2 -> lies_within l ->
  (exists w, run nothing [New n; ReadMasked false n2 1 0 c e l; Use 1; Delete 0] = Ok w)
  /\ run nothing [New n; ReadMasked false n2 1 0 c e l; Delete 0; Use 1] = UB.
Proof.
  intros n n2 c e l H1 H2 Hl. destruct n as [ | n], n2 as [ | n2]; try lia. rewrite !run_masked by exact Hl.
  destruct Hl as (_ & _ & _ & D). destruct (l_valid l) as [ | lv]; [lia | ].
  split; repeat go1; done.
Qed.
Print Assumptions C56_order_refuted.

(** ** C85: copies of subsets *)
Lemma gone_ub b h L : owns h L -> ~ In b (map fst L) -> free b h = UB /\ release2 (Some b) h = UB /\ touch (Some b) 1 h = UB.
Proof.
  intros (A & _) N. assert (R : rows_of (h_live h) b = None).
  { assert (N' : ~ In b (map fst (h_live h))) by (intro J; apply N; eapply Permutation_in; [ | exact J]; now apply Permutation_map).
    clear - N'. induction (h_live h) as [ | (c, r) t IH]; cbn in *; [reflexivity | ].
    destruct (Nat.eqb_spec b c) as [-> | D]; [tauto | apply IH; tauto]. }
  unfold release2, bind, free, touch. rewrite R. auto.
Qed.

Lemma nodup_l_r {A} (l r : list A) : NoDup (l ++ r) -> NoDup r /\ forall x, In x l -> ~ In x r.
Proof.
  induction l as [ | a t IH]; cbn; intro D; [split; [exact D | intros x []] | ]. inversion D; subst. destruct (IH H2) as (B & C). split; [exact B | ].
  intros x [<- | J]; [ | auto]. intro K. apply H1, in_or_app. auto.
Qed.

Lemma reached_sub w i o u : reached w -> objof (w_objs w) i = Some o -> In u (subs o) ->
  owns (w_heap w) (hall (w_objs w)) /\ sub_ok u /\ exists R, Permutation (hall (w_objs w)) (held_sub u ++ R).
Proof.
  intros H E I. destruct (reached_orderly w H) as (O & S). destruct (s_ok _ _ S i o E) as (K & _).
  split; [exact O | ]. split; [exact (proj1 (Forall_forall _ _) (k_subs o K) u I) | ].
  destruct (in_split _ _ I) as (l1 & l2 & El). assert (P := hall_split _ _ _ E). unfold held_obj in P. rewrite El, flat_map_app in P. cbn [flat_map] in P.
  eexists. rewrite P. set (A := held (d1 o) _). set (B := held (d2 o) _). set (C := if store o then _ else _). set (D := held_stats _ _).
  transitivity (held_sub u ++ (A ++ B ++ C ++ D ++ flat_map held_sub l1 ++ flat_map held_sub l2 ++ hall (objdrop (w_objs w) i))); [psolve | reflexivity].
Qed.

(** A deep copy of a subset can be destroyed at any time: everything else stays as it
    is. *)
Theorem C85_deep : forall w i o u, reached w -> objof (w_objs w) i = Some o -> In u (subs o) ->
  exists v h, CopySub true u (w_heap w) = Ok (v, h) /\ u_n v = u_n u
    /\ null (u_data v) = null (u_data u) /\ null (u_data2 v) = null (u_data2 u)
    /\ (forall x, In x (held_sub v) -> ~ In (fst x) (map fst (held_all w)))
    /\ exists h', DestroySub v h = Ok (tt, h') /\ Permutation (h_live h') (h_live (w_heap w)).
Proof.
  intros w i o u H E I. destruct (reached_sub w i o u H E I) as (O & K & R & P).
  destruct (safe_CopySub u (hall (w_objs w)) K) with (h := w_heap w) as (v & h & L & E1 & O1 & P1 & _ & N1 & N2 & N3).
  { intros y Hy. eapply Permutation_in; [symmetry; exact P | ]. apply in_or_app. now left. }
  { exact O. }
  exists v, h. split; [exact E1 | ]. do 3 (split; [assumption | ]). assert (O2 := owns_perm _ _ _ P1 O1). split.
  { intros x Hx J. destruct O2 as (_ & D & _). rewrite map_app in D. exact (proj2 (nodup_l_r _ _ D) _ (in_map fst _ _ Hx) J). }
  destruct (safe_DestroySub v (hall (w_objs w)) (fun _ L' => L' = hall (w_objs w)) eq_refl h O2) as ([] & h' & L' & E2 & O3 & ->).
  exists h'. split; [exact E2 | ]. destruct O as (A & _), O3 as (B & _). now rewrite A, B.
Qed.
Print Assumptions C85_deep.

(** A copy that is not deep (the default) shares the arrays of values, but both
    objects release them. *)
Theorem C85_shallow_refuted : forall w i o u, reached w -> objof (w_objs w) i = Some o -> In u (subs o) ->
  u_data u <> None \/ u_data2 u <> None ->
  exists v h, CopySub false u (w_heap w) = Ok (v, w_heap w) /\ DestroySub v (w_heap w) = Ok (tt, h) /\ DestroySub u h = UB.
Proof.
  intros w i o u H E I N. destruct (reached_sub w i o u H E I) as (O & (Kn & Ka & Kp & Ki & Kg) & R & P).
  eexists. unfold CopySub. eassert (X : exists h, _ /\ _) by shelve. destruct X as (h & X & Y). exists h. split; [reflexivity | ]. split; [exact X | exact Y].
  Unshelve.
  set (v := mkU (u_n u) false (u_lpos u) (u_lidx u) (u_global u) (u_data u) (u_data2 u)).
  set (A := held (u_lpos u) (u_n u) ++ held (u_lidx u) (u_n u) ++ held (u_global u) (u_n u)).
  set (B := held (u_data u) (u_n u) ++ held (u_data2 u) (u_n u)).
  assert (P' : Permutation (hall (w_objs w)) (held_sub v ++ A ++ R)).
  { rewrite P. unfold held_sub, v, A. rewrite Ka. cbn [u_alloc u_n u_data u_data2]. psolve. }
  destruct (safe_DestroySub v (A ++ R) (fun _ L' => L' = A ++ R) eq_refl (w_heap w) (owns_perm _ _ _ P' O)) as ([] & h & L' & E1 & O1 & ->).
  exists h. split; [exact E1 | ]. unfold DestroySub. rewrite Ka.
  unfold A in O1. rewrite <- !app_assoc in O1.
  destruct (safe_release2 (u_lpos u) (u_n u) _ _ (fun _ L => L = held (u_lidx u) (u_n u) ++ held (u_global u) (u_n u) ++ R) (Permutation_refl _) eq_refl h O1) as (x1 & h1 & L1 & F1 & Q1 & ->).
  destruct (safe_release1 (u_lidx u) (u_n u) _ _ (fun _ L => L = held (u_global u) (u_n u) ++ R) (Permutation_refl _) eq_refl h1 Q1) as (x2 & h2 & L2 & F2 & Q2 & ->).
  destruct (safe_release1 (u_global u) (u_n u) _ _ (fun _ L => L = R) (Permutation_refl _) eq_refl h2 Q2) as (x3 & h3 & L3 & F3 & Q3 & ->).
  unfold bind. rewrite F1. cbn [obind fst snd]. rewrite F2. cbn [obind fst snd]. rewrite F3. cbn [obind fst snd].
  assert (G : forall b, In (b, u_n u) B -> ~ In b (map fst R)).
  { intros b J J2. destruct (owns_perm _ _ _ P O) as (_ & D & _). unfold held_sub in D. rewrite Ka in D. fold A in D. fold B in D.
    rewrite <- app_assoc, map_app in D. apply nodup_l_r, proj1 in D. rewrite map_app in D.
    exact (proj2 (nodup_l_r _ _ D) _ (in_map fst _ _ J) J2). }
  destruct (u_data u) as [b | ] eqn:Ed.
  - cbn [release1]. now rewrite (proj1 (gone_ub b h3 R Q3 (G b ltac:(unfold B; cbn; auto)))).
  - destruct (u_data2 u) as [b | ] eqn:Ed2; [ | destruct N; congruence]. cbn [release1 ret obind fst snd].
    now rewrite (proj1 (proj2 (gone_ub b h3 R Q3 (G b ltac:(unfold B; cbn; auto))))).
Qed.
Print Assumptions C85_shallow_refuted.

(** Without values it can be destroyed. *)
Theorem C85_shallow_empty : forall u h, u_data u = None -> u_data2 u = None ->
  exists v, CopySub false u h = Ok (v, h) /\ DestroySub v h = Ok (tt, h).
Proof. intros u h A B. eexists. split; [reflexivity | ]. unfold DestroySub. cbn [u_alloc u_data u_data2]. rewrite A, B. reflexivity. Qed.
Print Assumptions C85_shallow_empty.

(** ** C86: values of the subsets of a mask *)
(** The state with a raster that has a subset with values. *)
Definition with_subset (n k m : nat) : world :=
  mkWorld (mkHeap 8 [(7, m); (6, m); (5, m); (4, m); (3, k); (2, k); (1, k)]) 1
    [(0, mkObj (Some 1) None (Some 2) (Some 3) true true false false k 1 n (Some (repeat None 6)) [mkU m true (Some 5) (Some 6) (Some 4) (Some 7) None] None false)].
Lemma run_subset n k m t : run nothing (New (S n) :: Build 0 (S k) [S m] :: Fill 0 0 :: t) = run (with_subset (S n) (S k) (S m)) t.
Proof.
  assert (E : run nothing [New (S n); Build 0 (S k) [S m]; Fill 0 0] = Ok (with_subset (S n) (S k) (S m))).
  { repeat (go1; unfold BuildSubSet, in_sub). reflexivity. }
  cbn [run] in *. destruct (step nothing (New (S n))) as [w | | ]; try discriminate. cbn [obind] in *.
  destruct (step w _) as [w' | | ]; try discriminate. cbn [obind] in *.
  destruct (step w' _) as [w2 | | ]; try discriminate. cbn [obind] in *. now injection E as ->.
Qed.
Definition and_partial (next : nat) (L : list (nat * nat)) (data pos idx : option nat) (c st : bool) (sz lg q : nat) (n k m : nat) : world :=
  mkWorld (mkHeap next (L ++ [(7, m); (6, m); (5, m); (4, m); (3, k); (2, k); (1, k)])) 2
    (w_objs (with_subset n k m) ++
     [(1, mkObj data None pos idx c st false false sz 1 lg (Some (repeat None 6)) [mkU q true (Some (next - 2)) (Some (next - 1)) (Some (next - 3)) None None] None false)]).
Lemma partial_step n n2 k m c lc lg lv ls q : ls 0 = S q ->
  exists w, step (with_subset (S n) (S k) (S m)) (ReadMasked false (S n2) 1 0 c false (mkLie true false false (S lc) (S lg) lv ls)) = Ok w
   /\ (w = and_partial 19 [(18, S q); (17, S q); (16, S q); (15, S lc); (14, S lc); (13, S lc); (12, S m)] (Some 15) (Some 13) (Some 14) true true (S lc) (S lg) (S q) (S n) (S k) (S m)
      \/ w = and_partial 17 [(16, S q); (15, S q); (14, S q); (13, S lg); (12, S m)] (Some 13) None None false false (S lg) (S lg) (S q) (S n) (S k) (S m)
      \/ w = and_partial 16 [(15, S q); (14, S q); (13, S q); (12, S m); (8, S lg)] (Some 8) None None false false (S lg) (S lg) (S q) (S n) (S k) (S m)).
Proof.
  intro Eq. destruct c; [ | destruct (Nat.eqb_spec n2 lg) as [-> | D]].
  - repeat (go1; rewrite ?Eq). eexists. split; [reflexivity | ]. left. vm_compute. reflexivity.
  - repeat (go1; rewrite ?Eq). eexists. split; [reflexivity | ]. right. right. vm_compute. reflexivity.
  - apply Nat.eqb_neq in D. repeat (go1; rewrite ?Eq, ?D). eexists. split; [reflexivity | ]. right. left. vm_compute. reflexivity.
Qed.

(** A raster read with a mask whose subset has values: if its cells match the mask in
    part, the copies of the values are never released. *)
Theorem C86_values_refuted : forall n n2 k m c l, 1 <= n -> 1 <= n2 -> 1 <= k -> 1 <= m ->
  l_any l = true -> l_within l = false -> l_exact l = false -> 1 <= l_cells l -> 1 <= l_grid l -> 1 <= l_subs l 0 ->
  exists w, run nothing [New n; Build 0 k [m]; Fill 0 0; ReadMasked false n2 1 0 c false l; Delete 1; Delete 0] = Ok w
    /\ w_objs w = [] /\ exists b, h_live (w_heap w) = [(b, m)].
Proof.
  intros n n2 k m c l H1 H2 H3 H4 A B C D E F. destruct n as [ | n], n2 as [ | n2], k as [ | k], m as [ | m]; try lia. rewrite run_subset.
  destruct l as [la lw le lc lg lv ls]. cbn in A, B, C, D, E, F. subst. destruct lc as [ | lc], lg as [ | lg]; try lia.
  destruct (ls 0) as [ | q] eqn:Eq; [lia | ].
  destruct (partial_step n n2 k m c lc lg lv ls q Eq) as (w & S & W). cbn [run]. rewrite S. cbn [obind].
  destruct W as [-> | [-> | ->]]; [exists (mkWorld (mkHeap 19 [(12, Datatypes.S m)]) 2 []) | exists (mkWorld (mkHeap 17 [(12, Datatypes.S m)]) 2 []) | exists (mkWorld (mkHeap 16 [(12, Datatypes.S m)]) 2 [])];
    (split; [vm_compute; reflexivity | ]; split; [reflexivity | ]; eexists; reflexivity).
Qed.
Print Assumptions C86_values_refuted.

(** ** C87: the constructors with the text of a coordinate system *)
(** The array handed over is gone after the constructor. *)
Theorem C87_text_refuted : forall w two n l, reached w -> 1 <= n ->
  (let! b := new n in let! _ := FromArrayText two n l b in touch (Some b) 1) (w_heap w) = UB.
Proof.
  intros w two n l H Hn. destruct (reached_orderly w H) as (O & _).
  destruct (safe_new n (hall (w_objs w)) (fun b L => L = (b, n) :: hall (w_objs w)) Hn ltac:(reflexivity) (w_heap w) O) as (b & h & L & E & O1 & ->).
  unfold bind. rewrite E. cbn [obind fst snd].
  assert (S : safe (FromArrayText two n l b) ((b, n) :: hall (w_objs w)) (fun _ L => L = hall (w_objs w))).
  { unfold FromArrayText, Destroy. cbn. destruct two; cbn.
    - do 3 (apply safe_bind, safe_ret). apply safe_bind. apply (safe_release2 (Some b) n _ (hall (w_objs w))); [reflexivity | ].
      apply safe_bind, safe_ret. apply safe_bind. unfold ReleaseSubset. cbn. apply safe_bind, safe_ret. apply safe_ret. now apply safe_ret.
    - apply safe_bind. apply (safe_free b n _ (hall (w_objs w))); [reflexivity | ].
      do 4 (apply safe_bind, safe_ret). apply safe_bind. unfold ReleaseSubset. cbn. apply safe_bind, safe_ret. apply safe_ret. now apply safe_ret. }
  destruct (S h O1) as ([] & h2 & L2 & E2 & O2 & ->). rewrite E2. cbn [obind fst snd].
  assert (N : ~ In b (map fst (hall (w_objs w)))) by (destruct O1 as (_ & D & _); now inversion D).
  exact (proj2 (proj2 (gone_ub b h2 _ O2 N))).
Qed.
Print Assumptions C87_text_refuted.

(** ** Cases *)
Ltac now_at := let w := fresh "w" in let E := fresh "E" in intros w E; vm_compute in E; injection E as <-.
Ltac look1 := lazymatch goal with
  | |- _ /\ _ => split
  | |- alive _ _ _ => eexists; split; [reflexivity | ]
  | |- forall x : world, @?P x => now_at; cbn [careful_run careful plain_run plain]
  | |- nobodys_mask _ _ => let k := fresh in let o := fresh in let E := fresh in
       intros k o E; cbn in E; repeat (destruct (Nat.eqb k _); [injection E as <-; discriminate | ]); discriminate
  | |- exists j, omask _ = Some j /\ _ => eexists; split; [reflexivity | ]
  | |- lie_ok _ _ _ => unfold lie_ok; cbn
  | |- _ -> _ => intros
  | |- forall u, In u _ -> _ => intros ? ?
  | H : _ \/ _ |- _ => destruct H; subst
  | |- _ => unfold readable, own_positions, copyable; solve [cbn; lia | cbn; auto | repeat constructor | cbn; intuition congruence]
  end.
Ltac look := cbn [careful_run careful plain_run plain]; repeat look1.

Definition story : list call :=
  [New 4; New2 3 2; Calc 0 3; Use 0; Build 0 3 [1; 2]; Fill 0 1; Fill 0 1; Stats 1; Update 1; CopyNew 0; CopyNew 1; CopyTo 2 0;
   Delete 0; Rebuild 2 3 [3]; Forget 2; Delete 1; Use 3].
Example C55_case : plain_run nothing story /\ exists w, run nothing story = Ok w /\ length (h_live (w_heap w)) = 10 /\ length (w_objs w) = 2.
Proof.
  split; [unfold story; look | ]. eexists. split; [vm_compute; reflexivity | ]. split; reflexivity.
Qed.
Example C55_left_case : plain_run nothing (story ++ [Delete 2; Delete 3])
  /\ exists w, run nothing (story ++ [Delete 2; Delete 3]) = Ok w /\ h_live (w_heap w) = [].
Proof.
  split; [unfold story; cbn [app]; look | ]. eexists. split; [vm_compute; reflexivity | ]. reflexivity.
Qed.

(** A mask with two subsets, rasters that lie within it and in part over it. *)
Definition inside : lie := mkLie true true true 3 4 3 (fun _ => 1).
Definition partly : lie := mkLie true false false 2 6 3 (fun s => match s with 0 => 2 | _ => 0 end).
Definition outside : lie := mkLie false false false 1 1 3 (fun _ => 0).
Definition masks : list call :=
  [New 4; Build 0 3 [2; 1]; ReadMasked false 9 1 0 true false inside; ReadMasked true 9 2 0 true false partly; Use 1; Use 2;
   WithMask true 0 3 3 2; Stats 2; ReadMasked false 8 1 0 true false outside; Use 4; MaskAgain 4 inside; Use 4; CopyNew 1; CopyNew 2;
   Delete 1; Delete 2; Delete 3].
Example C56_case : careful_run nothing masks /\ exists w, run nothing masks = Ok w /\ length (w_objs w) = 4 /\ length (h_live (w_heap w)) = 37.
Proof.
  split; [unfold masks; look | ]. eexists. split; [vm_compute; reflexivity | ]. split; reflexivity.
Qed.

(** A state with a subset that has values, for C85; nothing, for C87. *)
Example C85_case : reached (with_subset 5 3 2) /\ exists o u, objof (w_objs (with_subset 5 3 2)) 0 = Some o /\ In u (subs o) /\ u_data u <> None.
Proof.
  split.
  - exists [New 5; Build 0 3 [2]; Fill 0 0]. split; [look | vm_compute; reflexivity].
  - eexists. eexists. split; [reflexivity | ]. split; [now left | ]. discriminate.
Qed.
Example C55_given_case : reached_plain (with_subset 5 3 2) /\ exists o, objof (w_objs (with_subset 5 3 2)) 0 = Some o /\ pos o <> None.
Proof.
  split.
  - exists [New 5; Build 0 3 [2]; Fill 0 0]. split; [look | vm_compute; reflexivity].
  - eexists. split; [reflexivity | ]. discriminate.
Qed.
Example C55_nodata_case : exists w o, run nothing [New 5] = Ok w /\ reached_plain w /\ objof (w_objs w) 0 = Some o /\ pos o = None.
Proof.
  eexists. eexists. split; [vm_compute; reflexivity | ]. split; [ | split; reflexivity].
  exists [New 5]. split; [look | reflexivity].
Qed.
Example C56_lie_case : lies_within inside /\ l_any partly = true.
Proof. unfold lies_within. cbn. repeat split; lia. Qed.
Example C86_case : exists w, run nothing [New 5; Build 0 3 [2]; Fill 0 0; ReadMasked false 6 1 0 true false partly; Delete 1; Delete 0] = Ok w
  /\ h_live (w_heap w) = [(12, 2)].
Proof. eexists. split; [vm_compute; reflexivity | reflexivity]. Qed.
Example C87_case : reached nothing.
Proof. exists []. split; [look | reflexivity]. Qed.
