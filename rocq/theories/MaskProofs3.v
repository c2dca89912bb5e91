(** Masking: filling the new arrays. *)
From Coq Require Import ZArith QArith List Bool Lia ZifyBool Sorted.
From Verif Require Import Base RasterModel RasterSpec RasterProofs ListLib SubsetProofs4 MaskModel MaskSpec MaskProofs.
Import ListNotations.
Open Scope Z_scope.
Open Scope outcome_scope.

Section Fill.
Context {T : Type}.
Implicit Types r : raster T.
Implicit Types c : vcell T.

Definition right_len r c : Prop := Z.of_nat (length (vc_vals c)) = r_nlyrs r.

Lemma frame_layer r r' l : same_frame r r' -> layer_ok r' l <-> layer_ok r l.
Proof. intros F. unfold same_frame in F. rewrite F. reflexivity. Qed.

Lemma firstn_snoc {A} : forall k (l : list A) x, nth_error l k = Some x -> firstn (S k) l = firstn k l ++ [x].
Proof. induction k; destruct l; intros x H; try discriminate; [cbn in *; congruence|]. cbn [firstn app]. f_equal. apply IHk. exact H. Qed.

Lemma put_cell_ok r n idx c : storage r n -> 0 <= idx < n -> 1 <= r_nlyrs r -> right_len r c ->
  exists r', put_cell r idx c = Ok r' /\ same_frame r r' /\ storage r' n /\
    (forall i l, layer_ok r l -> read_cell r' i l = if i =? idx then aget (vc_vals c) (l - 1) else read_cell r i l).
Proof.
  intros S I L1 RL. unfold right_len in RL. unfold put_cell. destruct (r_is2d r) eqn:E2.
  - set (vals := vc_vals c) in *.
    assert (G : forall k, 0 <= k <= r_nlyrs r -> exists r',
      ofold (fun r kv => write_cell r idx (fst kv) (snd kv)) (firstn (Z.to_nat k) (combine (zseq (Z.of_nat (length vals))) vals)) r = Ok r' /\
      same_frame r r' /\ storage r' n /\
      (forall i l, layer_ok r l -> read_cell r' i l = if (i =? idx) && (l <=? k) then aget vals (l - 1) else read_cell r i l)).
    { intros k [K0 K1]. revert K1. pattern k. apply natlike_ind; [| |exact K0].
      - intros _. exists r. split; [reflexivity|]. split; [apply frame_refl|]. split; [exact S|].
        intros i l [A B]. destruct (l <=? 0) eqn:Q; [lia|]. rewrite andb_false_r. reflexivity.
      - intros j J0 IH J1. destruct IH as (r1 & E & F & S1 & V); [lia|].
        destruct (nth_error vals (Z.to_nat j)) as [v|] eqn:EV; [|apply nth_error_None in EV; lia].
        assert (EN : firstn (Z.to_nat (Z.succ j)) (combine (zseq (Z.of_nat (length vals))) vals) =
                     firstn (Z.to_nat j) (combine (zseq (Z.of_nat (length vals))) vals) ++ [(j, v)]).
        { replace (Z.to_nat (Z.succ j)) with (Datatypes.S (Z.to_nat j)) by lia.
          assert (NE : nth_error (combine (zseq (Z.of_nat (length vals))) vals) (Z.to_nat j) = Some (j, v)).
          { assert (X : forall (a : list Z) (b : list T) k x y, nth_error a k = Some x -> nth_error b k = Some y -> nth_error (combine a b) k = Some (x, y)).
            { clear. induction a; destruct b, k; cbn; intros; try discriminate; try congruence. apply IHa; auto. }
            apply X; [apply zseq_nth; lia|exact EV]. }
          apply firstn_snoc. exact NE. }
        rewrite EN, ofold_app, E. cbn [obind ofold fst snd].
        pose proof (frame_fields _ _ F) as (F1&F2&F3&_).
        destruct (write_ok r1 n idx (j + 1) v S1 I) as (r2 & W & Fr & S2 & RD); [unfold layer_ok; lia|].
        replace (j + 1 - 1) with j in W by lia. rewrite W. cbn [obind]. exists r2. split; [reflexivity|].
        split; [eapply frame_trans; eauto|]. split; [exact S2|]. intros i l LO. rewrite RD by (apply (frame_layer r r1); assumption). rewrite V by exact LO.
        destruct (i =? idx) eqn:Q1; cbn [andb]; [|reflexivity].
        destruct (l =? j + 1) eqn:Q2.
        + destruct (l <=? Z.succ j) eqn:Q3; [|lia]. symmetry. apply aget_ok; [destruct LO; lia|]. replace (l - 1) with j by lia. exact EV.
        + destruct (l <=? j) eqn:Q3, (l <=? Z.succ j) eqn:Q4; try lia; reflexivity. }
    destruct (G (r_nlyrs r)) as (r' & E & F & S' & V); [lia|].
    rewrite firstn_all2 in E by (rewrite combine_length, zseq_length; lia).
    exists r'. split; [exact E|]. split; [exact F|]. split; [exact S'|]. intros i l LO. rewrite V by exact LO.
    destruct LO. destruct (l <=? r_nlyrs r) eqn:Q; [|lia]. rewrite andb_true_r. reflexivity.
  - assert (NL : r_nlyrs r = 1) by (unfold storage in S; rewrite E2 in S; apply S). rewrite NL in RL.
    destruct (vc_vals c) as [|v [|? ?]] eqn:EV; cbn in RL; try lia.
    destruct (write_ok r n idx 1 v S I) as (r2 & W & Fr & S2 & RD); [unfold layer_ok; lia|].
    exists r2. split; [exact W|]. split; [exact Fr|]. split; [exact S2|]. intros i l LO. rewrite RD by exact LO.
    assert (l = 1) by (destruct LO; lia). subst l. rewrite andb_true_r. reflexivity.
Qed.

Lemma puts_cells n : forall ws r, storage r n -> 1 <= r_nlyrs r -> NoDup (map fst ws) ->
  Forall (fun ic => 0 <= fst ic < n /\ right_len r (snd ic)) ws ->
  exists r', ofold (fun r ic => put_cell r (fst ic) (snd ic)) ws r = Ok r' /\ same_frame r r' /\ storage r' n /\
    (forall i c l, In (i, c) ws -> layer_ok r l -> read_cell r' i l = aget (vc_vals c) (l - 1)) /\
    (forall i l, ~ In i (map fst ws) -> layer_ok r l -> read_cell r' i l = read_cell r i l).
Proof.
  induction ws as [|[i c] ws IH]; intros r S L N F; cbn [ofold].
  - exists r. split; [reflexivity|]. split; [apply frame_refl|]. split; [exact S|]. split; [intros ? ? ? []|reflexivity].
  - inversion N as [|? ? N1 N2]; inversion F as [|? ? [F1 F2] F3]; subst. cbn [fst snd] in *.
    destruct (put_cell_ok r n i c S F1 L F2) as (r1 & E & Fr & S1 & V). rewrite E. cbn [obind].
    pose proof (frame_fields _ _ Fr) as (_&_&G3&_).
    destruct (IH r1 S1 ltac:(lia) N2) as (r2 & E2 & Fr2 & S2 & V2 & U2).
    { eapply Forall_impl; [|exact F3]. unfold right_len. intros a [A B]. rewrite G3. auto. }
    exists r2. split; [exact E2|]. split; [eapply frame_trans; eauto|]. split; [exact S2|]. split.
    + intros i' c' l [H|H] LO.
      * injection H as <- <-. rewrite U2 by (try exact N1; apply (frame_layer r r1); assumption). rewrite V by exact LO. rewrite Z.eqb_refl. reflexivity.
      * apply V2; [exact H|apply (frame_layer r r1); assumption].
    + intros i' l H LO. cbn [map In] in H. rewrite U2 by (try (intros X; apply H; right; exact X); apply (frame_layer r r1); assumption).
      rewrite V by exact LO. destruct (i' =? i) eqn:Q; [|reflexivity]. exfalso. apply H. left. cbn [fst]. lia.
Qed.

Lemma combine_fst {A B} : forall (a : list A) (b : list B), length a = length b -> map fst (combine a b) = a.
Proof. induction a; destruct b; cbn; intros; try discriminate; [reflexivity|]. f_equal. apply IHa. lia. Qed.

Lemma combine_nth_In {A} (cells : list A) k (c : A) : nth_error cells k = Some c -> In (Z.of_nat k, c) (combine (zseq (Z.of_nat (length cells))) cells).
Proof.
  intros H. assert (X : forall (a : list Z) (b : list A) k x y, nth_error a k = Some x -> nth_error b k = Some y -> In (x, y) (combine a b)).
  { clear. induction a; destruct b, k; cbn; intros; try discriminate; [left; congruence|]. right. eapply IHa; eauto. }
  eapply X; [apply zseq_nth_nat|exact H]. assert (k < length cells)%nat by (apply nth_error_Some; congruence). lia.
Qed.

(** Values one after the other. *)
Lemma fill_seq st cols cells r : storage r (Z.of_nat (length cells)) -> 1 <= r_nlyrs r -> Forall (right_len r) cells ->
  exists r', fill_cells false st cols cells r = Ok r' /\ same_frame r r' /\ storage r' (Z.of_nat (length cells)) /\
    (forall k c l, nth_error cells k = Some c -> layer_ok r l -> read_cell r' (Z.of_nat k) l = aget (vc_vals c) (l - 1)).
Proof.
  intros S L F. unfold fill_cells. cbn [fst snd].
  set (ws := combine (zseq (Z.of_nat (length cells))) cells).
  assert (MF : map fst ws = zseq (Z.of_nat (length cells))) by (apply combine_fst; rewrite zseq_length; lia).
  destruct (puts_cells _ ws r S L) as (r' & E & Fr & S' & V & _).
  - rewrite MF. apply sorted_NoDup, StronglySorted_zseq.
  - apply Forall_forall. intros [i c] H. cbn [fst snd]. split.
    + apply zseq_In. rewrite <- MF. apply in_map_iff. exists (i, c). auto.
    + rewrite Forall_forall in F. apply F. apply in_combine_r in H. exact H.
  - exists r'. split; [exact E|]. split; [exact Fr|]. split; [exact S'|]. intros k c l H LO. apply V; [apply combine_nth_In; exact H|exact LO].
Qed.

(** Values at their places in the rectangle of the matches. *)
Definition box_idx (st : mstate (T := T)) cols c : Z := (vc_row c - k_minr st) * cols + vc_col c - k_minc st.

Lemma fill_full st cols n cells r : storage r n -> 1 <= r_nlyrs r -> r_ncells r = n -> n <= 18446744073709551616 -> 
  Forall (fun c => outside_box st c = false -> 0 <= box_idx st cols c < n) cells ->
  NoDup (map (box_idx st cols) (filter (fun c => negb (outside_box st c)) cells)) ->
  Forall (right_len r) cells ->
  exists r', fill_cells true st cols cells r = Ok r' /\ same_frame r r' /\ storage r' n /\
    (forall c l, In c cells -> outside_box st c = false -> layer_ok r l -> read_cell r' (box_idx st cols c) l = aget (vc_vals c) (l - 1)) /\
    (forall i l, (forall c, In c cells -> outside_box st c = false -> box_idx st cols c <> i) -> layer_ok r l -> read_cell r' i l = read_cell r i l).
Proof.
  intros S L NC N64 BI ND F. unfold fill_cells. cbn [fst snd].
  set (ins := filter (fun c => negb (outside_box st c)) cells) in *.
  assert (EQ : forall (cs : list (vcell T)) r0 (ks : list Z), length ks = length cs -> Forall (fun c => outside_box st c = false -> 0 <= box_idx st cols c < n) cs ->
     Forall (right_len r0) cs -> storage r0 n -> 1 <= r_nlyrs r0 -> r_ncells r0 = n ->
     ofold (fun r (kc : Z * vcell T) => if outside_box st (snd kc) then Ok r
               else if usz (r_ncells r - 1) <? usz ((vc_row (snd kc) - k_minr st) * cols + vc_col (snd kc) - k_minc st) then Ok r
                    else put_cell r (usz ((vc_row (snd kc) - k_minr st) * cols + vc_col (snd kc) - k_minc st)) (snd kc)) (combine ks cs) r0
     = ofold (fun r ic => put_cell r (fst ic) (snd ic)) (map (fun c => (box_idx st cols c, c)) (filter (fun c => negb (outside_box st c)) cs)) r0).
  { induction cs as [|c cs IH]; intros r0 [|k ks] LK B RL S0 L0 N0; cbn [combine ofold filter map]; try reflexivity; cbn in LK; try lia.
    inversion B as [|? ? B1 B2]; inversion RL as [|? ? R1 R2]; subst x l x0 l0. cbn [snd].
    destruct (outside_box st c) eqn:OB; cbn [negb map ofold].
    - cbn [obind]. apply IH; auto.
    - specialize (B1 eq_refl). cbn [fst snd].
      change ((vc_row c - k_minr st) * cols + vc_col c - k_minc st) with (box_idx st cols c).
      assert (U1 : usz (r_ncells r0 - 1) = n - 1) by (unfold usz; rewrite N0; apply Z.mod_small; lia).
      assert (U2 : usz (box_idx st cols c) = box_idx st cols c) by (unfold usz; apply Z.mod_small; lia).
      rewrite U1, U2. destruct (n - 1 <? box_idx st cols c) eqn:Q; [lia|].
      destruct (put_cell_ok r0 n (box_idx st cols c) c S0 B1 L0 R1) as (r1 & E & Fr & S1 & V). rewrite E. cbn [obind].
      pose proof (frame_fields _ _ Fr) as (_&_&G3&_).
      apply IH; [lia|exact B2| |exact S1|lia|unfold same_frame in Fr; rewrite Fr; exact N0].
      eapply Forall_impl; [|exact R2]. unfold right_len. intros. rewrite G3. assumption. }
  rewrite EQ; [|rewrite zseq_length; lia|exact BI|exact F|exact S|exact L|exact NC]. fold ins.
  set (ws := map (fun c => (box_idx st cols c, c)) ins).
  destruct (puts_cells n ws r S L) as (r' & E & Fr & S' & V & U).
  - unfold ws. rewrite map_map. exact ND.
  - apply Forall_forall. intros [i c] H. apply in_map_iff in H. destruct H as (c' & H & I). injection H as <- <-. cbn [fst snd].
    unfold ins in I. apply filter_In in I. destruct I as [I O]. apply negb_true_iff in O.
    rewrite Forall_forall in BI, F. auto.
  - exists r'. split; [exact E|]. split; [exact Fr|]. split; [exact S'|]. split.
    + intros c l I O LO. apply V; [|exact LO]. unfold ws. apply in_map_iff. exists c. split; [reflexivity|]. apply filter_In. rewrite O. auto.
    + intros i l H LO. apply U; [|exact LO]. unfold ws. rewrite map_map. cbn [fst]. intros I. apply in_map_iff in I. destruct I as (c & <- & I).
      apply filter_In in I. destruct I as [I O]. apply negb_true_iff in O. eapply H; eauto.
Qed.
End Fill.
