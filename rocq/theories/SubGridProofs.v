(** Subsets in GridFS: preparing the values of one subset. *)
From Coq Require Import ZArith List Bool Lia Sorted ZifyBool.
From Verif Require Import Base ListLib StrModel MapModel MapProofs RasterModel RasterSpec RasterProofs BasicModel FloatModel CoordFloatModel TypeModel MongoModel CopyModel NumModel AscModel CellModel CellSpec GridfsModel GridfsSpec GridfsProofs3 SubsetModel SubsetSpec SubsetProofs SubsetProofs2 SubsetProofs3 SubsetProofs4 SubsetProofs6 SubGridModel SubGridSpec.
Import ListNotations.
Open Scope Z_scope.
Open Scope outcome_scope.

(** ** Positions that are everything *)
Lemma sorted_low : forall (l : list Z) lo i x, StronglySorted Z.lt l -> Forall (fun a => lo <= a) l -> nth_error l i = Some x -> lo + Z.of_nat i <= x.
Proof.
  induction l as [|a l IH]; intros lo i x S F E; [destruct i; discriminate|]. inversion S as [|? ? S1 S2]; inversion F as [|? ? F1 F2]; subst.
  destruct i as [|i]; cbn [nth_error] in E; [injection E as <-; lia|].
  specialize (IH (a + 1) i x S1). rewrite Nat2Z.inj_succ. assert (a + 1 + Z.of_nat i <= x); [|lia]. apply IH; [|exact E].
  eapply Forall_impl; [|exact S2]. cbn. intros; lia.
Qed.
Lemma sorted_high : forall (l : list Z) hi i x, StronglySorted Z.lt l -> Forall (fun a => a < hi) l -> nth_error l i = Some x -> x + (Z.of_nat (length l) - Z.of_nat i) <= hi.
Proof.
  induction l as [|a l IH]; intros hi i x S F E; [destruct i; discriminate|]. inversion S as [|? ? S1 S2]; inversion F as [|? ? F1 F2]; subst. cbn [length].
  destruct i as [|i]; cbn [nth_error] in E.
  - injection E as <-. destruct l as [|b l]; [cbn; lia|]. pose proof (IH hi 0%nat b S1 F2 eq_refl). inversion S2; subst. lia.
  - specialize (IH hi i x S1 F2 E). lia.
Qed.
Lemma sorted_all (l : list Z) i : StronglySorted Z.lt l -> Forall (fun a => 0 <= a < Z.of_nat (length l)) l -> (i < length l)%nat ->
  nth_error l i = Some (Z.of_nat i).
Proof.
  intros S F L. destruct (nth_error l i) as [x|] eqn:E; [|apply nth_error_None in E; lia]. f_equal.
  pose proof (sorted_low l 0 i x S) as A. pose proof (sorted_high l (Z.of_nat (length l)) i x S) as B.
  assert (Forall (fun a => 0 <= a) l) by (eapply Forall_impl; [|exact F]; cbn; lia).
  assert (Forall (fun a => a < Z.of_nat (length l)) l) by (eapply Forall_impl; [|exact F]; cbn; lia).
  specialize (A H E). specialize (B H0 E). lia.
Qed.

(** ** A subset with its places *)
Notation win u := ((s_erow u - s_srow u + 1) * (s_ecol u - s_scol u + 1)).
Definition placed (u : subset f64) (g li : list Z) : Prop :=
  s_global u = Some g /\ s_lidx u = Some li /\ s_n u = Z.of_nat (length g) /\ length li = length g /\ g <> [] /\
  StronglySorted Z.lt li /\ Forall (fun j => 0 <= j < win u) li /\ 0 <= s_erow u - s_srow u + 1 /\ 0 <= s_ecol u - s_scol u + 1.

Lemma placed_same u w g li : same_cells u w -> placed u g li -> placed w g li.
Proof.
  intros (A1 & A2 & A3 & A4 & A5 & A6 & A7) P. unfold placed in *. rewrite A1, A2, A3, A4, A5, A6, A7. exact P.
Qed.

Lemma placed_le u g li : placed u g li -> 0 < s_n u <= win u.
Proof.
  intros (_ & _ & N & L & NE & S & F & _). rewrite N, <- L. destruct li as [|a li]; [destruct g; [congruence|discriminate]|]. split; [cbn [length]; lia|].
  pose proof (sorted_high (a :: li) (win u) 0 a S) as B.
  assert (Forall (fun x => x < win u) (a :: li)) as FH by (eapply Forall_impl; [|exact F]; cbn; lia). specialize (B FH eq_refl). inversion F; subst. cbn [length] in *. lia.
Qed.

(** Where the value of cell [i] is put. *)
Definition spot (include : bool) (li : list Z) (i : Z) : Z := if include then nth (Z.to_nat i) li 0 else i.
Definition count (include : bool) (u : subset f64) : Z := if include then win u else s_n u.

Lemma spot_inj include (u : subset f64) g li i j : placed u g li -> 0 <= i < s_n u -> 0 <= j < s_n u -> spot include li i = spot include li j -> i = j.
Proof.
  intros (_ & _ & N & L & _ & S & _) Hi Hj E. destruct include; cbn [spot] in E; [|exact E].
  assert (Z.to_nat i = Z.to_nat j); [|lia]. apply (sorted_nth_inj _ _ _ (nth (Z.to_nat i) li 0) S); [|rewrite E]; apply nth_error_nth'; lia.
Qed.
Lemma spot_range include (u : subset f64) g li i : placed u g li -> 0 <= i < s_n u -> 0 <= spot include li i < count include u.
Proof.
  intros (_ & _ & N & L & _ & S & F & _) Hi. destruct include; cbn [spot count]; [|exact Hi]. rewrite Forall_forall in F. apply F, nth_In. lia.
Qed.

(** ** Preparing the values *)
Section Prepare.
Variables (s : rdt) (toint : num -> option Z) (r : raster num).

Lemma prepare_ok dv k u g li L val conv include default : placed u g li -> holds u L val ->
  (forall i l, 0 <= i < s_n u -> 0 <= l < L -> cvt s (VD (val i l)) = Ok (conv i l)) ->
  exists d, PrepareSubsetData FloatEqual toint (to_cell s) nodata_value r dv k u false include [] default = Ok (Some (d, count include u * L, L)) /\
    Z.of_nat (length d) = count include u * L /\
    (forall i l, 0 <= i < s_n u -> 0 <= l < L -> nth_error d (Z.to_nat (spot include li i * L + l)) = Some (conv i l)) /\
    (forall v, In v d -> v = r_nodata r \/ exists i l, 0 <= i < s_n u /\ 0 <= l < L /\ v = conv i l).
Proof.
  intros P H CV. pose proof (placed_le u g li P) as PL. pose proof P as (G & LI & N & LL & NE & S & F & W1 & W2).
  pose proof H as (HL & L0 & HV).
  set (w := fun vl : Z * Z => (spot include li (fst vl) * L + snd vl, conv (fst vl) (snd vl))).
  set (ws := map w (cell_layers (s_n u) L)).
  set (a := repeat (r_nodata r) (Z.to_nat (count include u * L))).
  assert (CP : 0 < count include u) by (destruct include; cbn [count]; lia).
  assert (RG : forall vl, In vl (cell_layers (s_n u) L) -> 0 <= fst (w vl) < Z.of_nat (length a)).
  { intros vl I. apply cell_layers_In in I. unfold w, a. cbn [fst]. rewrite repeat_length, Z2Nat.id by nia.
    destruct (spot_range include u g li (fst vl) P (proj1 I)). nia. }
  assert (ND : NoDup (map fst ws)).
  { unfold ws. rewrite map_map. unfold w. cbn [fst]. apply NoDup_map_in; [apply NoDup_cell_layers|].
    intros [i l] [j m] Hi Hj E. apply cell_layers_In in Hi, Hj. cbn [fst snd] in *.
    apply layer_pos_inj in E; [|lia|lia]. destruct E as [E ->]. f_equal. apply (spot_inj include u g li i j P); [lia|lia|exact E]. }
  assert (FR : Forall (fun iv => 0 <= fst iv < Z.of_nat (length a)) ws).
  { apply Forall_forall. intros iv I. unfold ws in I. apply in_map_iff in I. destruct I as (vl & <- & I). apply RG, I. }
  exists (fold_left put ws a). split; [|split; [|split]].
  - unfold PrepareSubsetData. cbn [recls_layers]. rewrite HL. replace (L <? 0) with false by lia.
    replace (if include then win u else s_n u) with (count include u) by reflexivity.
    unfold init1d. replace (count include u * L <=? 0) with false by nia. fold a. rewrite LI, G. cbn [deref obind].
    rewrite (try_writes _ w); [reflexivity|]. intros vl I. split; [|apply RG, I]. apply cell_layers_In in I. destruct I as [I J].
    rewrite (aget_ok li (fst vl) (nth (Z.to_nat (fst vl)) li 0)); [|lia|apply nth_error_nth'; lia]. cbn [obind].
    rewrite (aget_ok g (fst vl) (nth (Z.to_nat (fst vl)) g 0)); [|lia|apply nth_error_nth'; lia]. cbn [obind].
    assert (SV : forall df gi, sub_value toint (to_cell s) r k u L false [] df (fst vl) (snd vl) gi = Ok (Some (conv (fst vl) (snd vl)))).
    { intros df gi. unfold sub_value. cbn [andb negb]. destruct (Z.eqb_spec L 1) as [E1|E1].
      - destruct HV as (d & Ed & Ld & Vd). rewrite Ed. replace (1 <? L) with false by lia. cbn [andb isnull negb deref obind].
        rewrite (aget_ok d (fst vl) (val (fst vl) 0)); [|lia|apply Vd; exact I]. cbn [obind].
        assert (snd vl = 0) as -> by lia. unfold to_cell. rewrite CV by lia. reflexivity.
      - destruct HV as (d & Ed & Ld & Vd). rewrite Ed. replace (1 <? L) with true by lia. cbn [andb isnull negb deref obind].
        destruct (Vd (fst vl) I) as (row & Er & Lr & Vr).
        rewrite (aget_ok d (fst vl) row); [|lia|exact Er]. cbn [obind]. rewrite (aget_ok row (snd vl) (val (fst vl) (snd vl))); [|lia|apply Vr; exact J]. cbn [obind].
        unfold to_cell. rewrite CV by assumption. reflexivity. }
    rewrite SV. cbn [obind]. unfold w, spot. reflexivity.
  - rewrite puts_length. unfold a. rewrite repeat_length. nia.
  - intros i l Hi Hl. apply puts_in; [exact ND|exact FR|]. unfold ws. apply in_map_iff. exists (i, l). split; [reflexivity|]. apply cell_layers_In. cbn [fst snd]. lia.
  - intros v I. apply In_nth_error in I. destruct I as (j & E).
    destruct (in_dec Z.eq_dec (Z.of_nat j) (map fst ws)) as [M|M].
    + apply in_map_iff in M. destruct M as ([p c] & Ep & M). cbn [fst] in Ep. subst p. pose proof (puts_in ws a (Z.of_nat j) c ND FR M) as Q. rewrite Nat2Z.id in Q.
      assert (v = c) by congruence. subst c. right. unfold ws in M. apply in_map_iff in M. destruct M as ([i l] & Ew & I). unfold w in Ew. cbn [fst snd] in Ew. injection Ew as _ <-.
      apply cell_layers_In in I. cbn [fst snd] in I. exists i, l. tauto.
    + left. pose proof (puts_other ws a (Z.of_nat j)) as Q. rewrite Nat2Z.id in Q. rewrite Q in E; [|lia|exact M|eapply Forall_impl; [|exact FR]; cbn; lia].
      unfold a in E. apply nth_error_In in E. apply repeat_spec in E. exact E.
Qed.
End Prepare.

(** ** Taking the values *)
Lemma upd_here {A} (o : list A) i x y : nth_error o i = Some y -> nth_error (upd o i x) i = Some x.
Proof.
  intros H. rewrite upd_nth, Nat.eqb_refl. assert (i < length o)%nat by (apply nth_error_Some; congruence).
  destruct (i <? length o)%nat eqn:E; [reflexivity|lia].
Qed.

(** Filling row [i] element by element. *)
Lemma fill_row1 {A} (h : Z -> outcome A) (w : Z -> A) n o i row : 0 <= i ->
  nth_error o (Z.to_nat i) = Some row -> Z.of_nat (length row) = n -> (forall j, 0 <= j < n -> h j = Ok (w j)) ->
  ofold (fun o j => let* v := h j in let* row := aget o i in let* row' := aset row j v in aset o i row') (zseq n) o
  = Ok (upd o (Z.to_nat i) (map w (zseq n))).
Proof.
  intros I E L H.
  assert (IL : (Z.to_nat i < length o)%nat) by (apply nth_error_Some; congruence).
  assert (G : forall l row0 rowr, Forall (fun j => 0 <= j < n) l ->
     ofold (fun row j => aset row j (w j)) l row0 = Ok rowr ->
     forall o0, length o0 = length o -> nth_error o0 (Z.to_nat i) = Some row0 ->
     ofold (fun o j => let* v := h j in let* row := aget o i in let* row' := aset row j v in aset o i row') l o0
     = Ok (upd o0 (Z.to_nat i) rowr)).
  { induction l as [|j l IH]; intros row0 rowr F Hr o0 Lo Eo; cbn [ofold] in *.
    - injection Hr as <-. rewrite upd_same by exact Eo. reflexivity.
    - inversion F; subst. rewrite H by assumption. cbn [obind]. rewrite (aget_ok o0 i row0 I Eo). cbn [obind].
      destruct (aset row0 j (w j)) as [row1| |] eqn:Er; try discriminate. cbn [obind] in *.
      unfold aset at 1. destruct (i <? 0) eqn:E0; [lia|]. destruct (Z.to_nat i <? length o0)%nat eqn:E1; [|lia]. cbn [obind].
      rewrite (IH row1 rowr); [|assumption|exact Hr|rewrite upd_length; exact Lo|eapply upd_here; exact Eo].
      rewrite upd_repeat_map. reflexivity. }
  apply (G (zseq n) row); auto.
  - apply Forall_forall. intros j Hj. apply zseq_In in Hj. exact Hj.
  - apply ofold_fill; [exact L|]. intros; reflexivity.
Qed.

Lemma fold_rows {A} (h : Z -> Z -> outcome A) (v : Z -> Z -> A) n L : forall (o : list (list A)),
  0 <= n <= Z.of_nat (length o) -> Forall (fun row => Z.of_nat (length row) = L) o ->
  (forall i j, 0 <= i < n -> 0 <= j < L -> h i j = Ok (v i j)) ->
  exists o', ofold (fun o i => ofold (fun o j => let* x := h i j in let* row := aget o i in let* row' := aset row j x in aset o i row') (zseq L) o) (zseq n) o = Ok o' /\
    length o' = length o /\ (forall i, 0 <= i < n -> nth_error o' (Z.to_nat i) = Some (map (v i) (zseq L))) /\
    (forall i, n <= i -> nth_error o' (Z.to_nat i) = nth_error o (Z.to_nat i)).
Proof.
  intros o [N0 N1] F H. revert N1 H. pattern n. apply natlike_ind; [| |exact N0].
  - intros _ _. exists o. rewrite (zseq_0 0) by lia. split; [reflexivity|]. split; [reflexivity|]. split; [intros; lia|reflexivity].
  - intros m M0 IH M1 H. destruct IH as (o1 & E & Le & P1 & P2); [lia|intros; apply H; lia|]. unfold Z.succ. rewrite (zseq_S m), ofold_app, E by lia. cbn [obind ofold].
    destruct (nth_error o (Z.to_nat m)) as [row|] eqn:Er; [|apply nth_error_None in Er; lia].
    assert (Lr : Z.of_nat (length row) = L) by (rewrite Forall_forall in F; apply F; eapply nth_error_In; exact Er).
    rewrite (fill_row1 (h m) (v m) L o1 m row); [|lia|rewrite P2 by lia; exact Er|exact Lr|intros; apply H; lia]. cbn [obind].
    eexists. split; [reflexivity|]. split; [rewrite upd_length; exact Le|]. split.
    + intros i Hi. rewrite upd_nth. destruct (Nat.eqb_spec (Z.to_nat i) (Z.to_nat m)) as [Q|Q].
      * replace (Z.to_nat m <? length o1)%nat with true by lia. assert (i = m) as -> by lia. reflexivity.
      * apply P1. lia.
    + intros i Hi. rewrite upd_nth. destruct (Nat.eqb_spec (Z.to_nat i) (Z.to_nat m)) as [Q|Q]; [lia|]. apply P2. lia.
Qed.

(** ** Reading one subset *)
Lemma li_all (w : subset f64) g li i : placed w g li -> s_n w = win w -> 0 <= i < s_n w -> nth (Z.to_nat i) li 0 = i.
Proof.
  intros (_ & _ & N & L & _ & S & F & _) E Hi. rewrite E, <- L in *.
  assert (Q : nth_error li (Z.to_nat i) = Some (Z.of_nat (Z.to_nat i))).
  { apply sorted_all; [exact S| |lia]. eapply Forall_impl; [|exact F]. cbn. intros; lia. }
  rewrite Z2Nat.id in Q by lia. apply nth_error_nth. exact Q.
Qed.

Lemma pick_spot include (w : subset f64) g li i : placed w g li -> 0 <= i < s_n w ->
  (s_n w = count include w -> spot include li i = i) /\ (win w = count include w -> spot include li i = nth (Z.to_nat i) li 0) /\
  (win w <> count include w -> spot include li i = i).
Proof.
  intros P Hi. destruct include; cbn [spot count].
  - split; [|split]; [|reflexivity|congruence]. intros E. apply (li_all w g li i P E Hi).
  - split; [reflexivity|split; [|reflexivity]]. intros E. symmetry. apply (li_all w g li i P); [symmetry; exact E|exact Hi].
Qed.

Lemma read_holds pick st w name asked g li L include h' hs' vs x yc yl :
  placed w g li -> room w L -> 0 < L -> in_int (win w) ->
  ReadGridFsFile pick RDT_Double st name (map (fun kv => (fst kv, of_int (snd kv))) InitialHeader) InitialStrHeader asked = Ok (true, h', hs', Some vs) ->
  lookup h' K_CELLSNUM = Some yc -> f_int yc = Ok (count include w) -> lookup h' K_LAYERS = Some yl -> f_int yl = Ok L ->
  (forall i l, 0 <= i < s_n w -> 0 <= l < L -> exists v, nth_error vs (Z.to_nat (spot include li i * L + l)) = Some v /\ as_double v = x i l) ->
  exists w', ReadSubset pick st w name asked = Ok (true, w') /\ same_cells w w' /\ s_usable w' = true /\ holds w' L x.
Proof.
  intros P [R1 R2] L0 IW RD LC IC LL IL V. pose proof (placed_le w g li P) as PL. pose proof P as (G & LI & N & LE & NE & S & F & W1 & W2).
  unfold ReadSubset. rewrite RD. cbn [obind negb]. unfold imul. replace (in_intb (win w)) with true by (unfold in_intb, in_int in *; lia). cbn [obind].
  unfold at_get. rewrite LC. cbn [obind]. rewrite IC. cbn [obind]. rewrite LL. cbn [obind]. rewrite IL. cbn [obind].
  assert (CC : count include w = win w \/ count include w = s_n w) by (destruct include; auto).
  replace ((negb (win w =? count include w) && negb (s_n w =? count include w)) || (L <? 0)) with false by lia. cbn [deref obind].
  assert (GET : forall i l, 0 <= i < s_n w -> 0 <= l < L -> aget (map as_double vs) (spot include li i * L + l) = Ok (x i l)).
  { intros i l Hi Hl. destruct (V i l Hi Hl) as (v & E & Ex). apply aget_ok; [pose proof (spot_range include w g li i P Hi); nia|]. rewrite nth_error_map, E. cbn [option_map]. congruence. }
  set (o1 := match s_data w with Some o => o | None => match init1d None (s_n w) nodata_value with Some a => a | None => [] end end).
  assert (O1 : Z.of_nat (length o1) = s_n w).
  { unfold o1. destruct (s_data w) as [o|] eqn:E; [exact (R1 o eq_refl)|]. unfold init1d. replace (s_n w <=? 0) with false by lia. rewrite repeat_length. lia. }
  assert (H1 : L = 1 -> forall u, (u = set_sdata w 1 (Some (map (fun i => x i 0) (zseq (s_n w)))) (s_data2 w) true) -> same_cells w u /\ s_usable u = true /\ holds u L x).
  { intros -> u ->. split; [repeat split|]. split; [reflexivity|]. split; [reflexivity|]. split; [lia|]. cbn [Z.eqb Pos.eqb]. eexists. split; [reflexivity|].
    cbn [set_sdata s_n]. split; [rewrite map_length, zseq_length; lia|]. intros i Hi. rewrite nth_error_map, zseq_nth by lia. reflexivity. }
  destruct ((L =? 1) && (s_n w =? count include w)) eqn:B1.
  - apply andb_true_iff in B1. destruct B1 as [B1 B2]. assert (L = 1) as -> by lia. unfold SetData. cbn [set_sdata s_n s_data s_data2].
    replace (count include w =? s_n w) with true by lia. cbn [negb]. fold o1.
    rewrite (ofold_fill _ (fun i => x i 0) (s_n w) o1 O1).
    2:{ intros b i Hi _. assert (Q : aget (map as_double vs) i = Ok (x i 0)).
        { rewrite <- (GET i 0) by lia. f_equal. destruct (pick_spot include w g li i P Hi) as (A & _). rewrite A by lia. lia. }
        rewrite Q. reflexivity. }
    cbn [obind fst snd]. eexists. split; [reflexivity|]. apply H1; [reflexivity|]. unfold set_sdata. reflexivity.
  - unfold take_values. destruct (Z.eqb_spec L 1) as [E1|E1].
    + subst L. fold o1. cbn [andb] in B1. rewrite LI. cbn [deref obind].
      rewrite (ofold_fill _ (fun i => x i 0) (s_n w) o1 O1).
      2:{ intros b i Hi _. rewrite (aget_ok li i (nth (Z.to_nat i) li 0)); [|lia|apply nth_error_nth'; lia]. cbn [obind].
          assert (Q : aget (map as_double vs) (nth (Z.to_nat i) li 0) = Ok (x i 0)).
          { rewrite <- (GET i 0) by lia. f_equal. destruct (pick_spot include w g li i P Hi) as (_ & A & _). rewrite A by lia. lia. }
          rewrite Q. reflexivity. }
      cbn [obind]. eexists. split; [reflexivity|]. apply H1; [reflexivity|]. reflexivity.
    + set (o2 := match s_data2 w with Some o => o | None => repeat (repeat nodata_value (Z.to_nat L)) (Z.to_nat (s_n w)) end).
      assert (O2 : Z.of_nat (length o2) = s_n w /\ Forall (fun row => Z.of_nat (length row) = L) o2).
      { unfold o2. destruct (s_data2 w) as [o|] eqn:E; [exact (R2 o eq_refl)|]. rewrite repeat_length. split; [lia|]. apply Forall_forall. intros row I. apply repeat_spec in I. subst row. rewrite repeat_length. lia. }
      destruct O2 as [O2 O3].
      destruct (fold_rows (fun i j => let* p := (if win w =? count include w then let* li0 := deref (s_lidx w) in aget li0 i else Ok i) in aget (map as_double vs) (p * L + j)) x (s_n w) L o2) as (o' & E & Le & A & _).
      * lia.
      * exact O3.
      * intros i j Hi Hj. destruct (pick_spot include w g li i P Hi) as (_ & A & B). destruct (Z.eqb_spec (win w) (count include w)) as [Q|Q].
        -- rewrite LI. cbn [deref obind]. rewrite (aget_ok li i (nth (Z.to_nat i) li 0)); [|lia|apply nth_error_nth'; lia]. cbn [obind]. rewrite <- A by exact Q. apply GET; assumption.
        -- cbn [obind]. rewrite <- (B Q) at 1. apply GET; assumption.
      * match goal with |- context [ofold ?f (zseq (s_n w)) o2] => assert (EQ : ofold f (zseq (s_n w)) o2 = Ok o') end.
        { rewrite <- E. clear. clearbody o2. generalize (zseq (s_n w)). intros l. revert o2. induction l as [|i l IH]; intros o; cbn [ofold]; [reflexivity|].
          match goal with |- obind ?a _ = obind ?b _ => assert (a = b) as -> end.
          - generalize (zseq L). intros l'. revert o. induction l' as [|j l' IH']; intros o; cbn [ofold]; [reflexivity|].
            destruct (if win w =? count include w then _ else _); cbn [obind]; auto.
            all: destruct (aget (map as_double vs) _); cbn [obind]; auto. all: destruct (aget o i); cbn [obind]; auto. all: destruct (aset _ j _); cbn [obind]; auto. all: destruct (aset o i _); cbn [obind]; auto.
          - match goal with |- obind ?a _ = _ => destruct a end; cbn [obind]; auto. }
        rewrite EQ. cbn [obind]. eexists. split; [reflexivity|]. split; [repeat split|]. split; [reflexivity|]. split; [reflexivity|]. split; [lia|].
        replace (L =? 1) with false by lia. exists o'. split; [reflexivity|]. cbn [set_sdata s_n]. split; [lia|]. intros i Hi. eexists. split; [apply A; exact Hi|].
        split; [rewrite map_length, zseq_length; lia|]. intros l Hl. rewrite nth_error_map, zseq_nth by lia. reflexivity.
Qed.
