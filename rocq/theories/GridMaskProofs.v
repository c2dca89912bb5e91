(** Reading with a mask that has subsets. *)
From Coq Require Import ZArith QArith List Bool Lia Sorted.
From Verif Require Import Base ListLib StrModel MapModel BasicModel RasterModel RasterSpec RasterProofs CoordModel FloatModel CoordFloatModel TypeModel MongoModel CopyModel NumModel AscModel CellModel GdalModel MaskModel SubsetModel SubsetSpec SubsetProofs MaskSubModel MaskSubSpec MaskSubProofs MaskSubProofs2 MaskSubProofs3 GridfsModel GridfsSpec GridMaskModel GridMaskSpec.
Import ListNotations.
Open Scope Z_scope.
Open Scope outcome_scope.

Lemma bind_inv {A B} (m : outcome A) (k : A -> outcome B) y : obind m k = Ok y -> exists x, m = Ok x /\ k x = Ok y.
Proof. destruct m; cbn; intros E; try discriminate. eauto. Qed.

Ltac inv_bind E :=
  repeat match type of E with
  | obind _ _ = Ok _ => let x := fresh "x" in let Q := fresh "Q" in apply bind_inv in E; destruct E as (x & Q & E)
  end.

Section Read.
Context {D : Type}.
Variables (pick : list gfile -> option gfile) (feq : num -> num -> bool) (s : rdt) (ord : list nat) (st : list gfile) (name : bytes)
  (calc maskext : bool) (v : mask_view) (dflt nv : num) (opts : smap bytes).

Lemma read_taken ok h o r : ReadFromMongoDB pick feq s ord st name calc (Some v) maskext dflt nv opts = Ok (ok, h, o, Some r) -> by_positions calc maskext v h = Ok true ->
  ok = true /\ r_pos r = mk_pos v /\ r_posidx r = mk_idx v /\ r_calc r = true /\ r_ncells r = mk_count v.
Proof.
  unfold ReadFromMongoDB, by_positions. cbv zeta. intros E B. inv_bind B. injection B as B.
  apply bind_inv in E. destruct E as ([[[ok' h'] hs] data] & RD & E). cbv beta iota in E. destruct ok'; cbn [negb] in E; [|discriminate].
  inv_bind E. destruct (_ && negb _) eqn:C1 in E; [discriminate|].
  assert (h' = h).
  { destruct (calc || _) in E; cbn [andb] in E.
    all: repeat match type of E with
    | (if ?c then _ else _) = Ok _ => destruct c eqn:?
    | obind _ _ = Ok _ => let x := fresh "x" in let Q := fresh "Q" in apply bind_inv in E; destruct E as (x & Q & E)
    | (let '(_, _) := ?c in _) = Ok _ => destruct c as [[? ?] ?] eqn:?
    | Ok (_, ?a, _, _) = Ok (_, ?b, _, _) => injection E; intros; congruence
    end; try discriminate E; try (injection E; intros; congruence). }
  subst h'.
  repeat match goal with
  | A : ?t = Ok ?a, B : ?t = Ok ?b |- _ => rewrite A in B; injection B as B; subst
  end.
  match type of E with context [calc || ?c] => set (cc := calc || c) in * end.
  destruct cc; cbn [andb] in B, E; [|discriminate]. destruct maskext; cbn [andb] in B, E; [|discriminate]. rewrite B in E.
  cbv beta iota in E.
  match type of E with (if ?c then _ else _) = _ => destruct c; [discriminate|] end.
  inv_bind E. rewrite andb_false_r in E. injection E as <- _ <-. cbn. auto.
Qed.

Lemma read_positions ok h o r c : calc = true -> maskext = true -> ReadFromMongoDB pick feq s ord st name calc (Some v) maskext dflt nv opts = Ok (ok, h, o, Some r) ->
  lookup h K_CELLSNUM = Some c -> f_int c = Ok (mk_valid v) -> by_positions calc maskext v h = Ok true.
Proof.
  intros -> ->. unfold ReadFromMongoDB, by_positions. cbv zeta. intros E L F.
  apply bind_inv in E. destruct E as ([[[ok' h'] hs] data] & RD & E). cbv beta iota in E. destruct ok'; cbn [negb] in E; [|discriminate].
  inv_bind E. destruct (_ && negb _) eqn:C1 in E; [discriminate|].
  assert (h' = h).
  { cbn [orb andb] in E.
    repeat match type of E with
    | (if ?c then _ else _) = Ok _ => destruct c eqn:?
    | obind _ _ = Ok _ => let x := fresh "x" in let Q := fresh "Q" in apply bind_inv in E; destruct E as (x & Q & E)
    | (let '(_, _) := ?c in _) = Ok _ => destruct c as [[? ?] ?] eqn:?
    end; try discriminate E; try (injection E; intros; congruence). }
  subst h'. unfold at_get in *. rewrite L in *.
  repeat match goal with A : Ok _ = Ok _ |- _ => injection A as A; subst end.
  repeat match goal with A : ?t = Ok ?a, B : ?t = Ok ?b |- _ => rewrite A in B; injection B as B; subst end.
  repeat match goal with A : ?t = Ok _ |- context [obind ?t _] => rewrite A; cbn [obind] end.
  cbn [orb andb]. rewrite Z.eqb_refl. reflexivity.
Qed.

(** A mask with which nothing can be masked is only read by positions. *)
Lemma read_apply ok h o r : ReadFromMongoDB pick feq s ord st name true (Some (mkMask (mk_valid v) (mk_count v) (mk_pos v) (mk_idx v) (fun _ => UB))) true dflt nv opts = Ok (ok, h, o, Some r) ->
  exists c, lookup h K_CELLSNUM = Some c /\ f_int c = Ok (mk_valid v) /\ ReadFromMongoDB pick feq s ord st name true (Some v) true dflt nv opts = Ok (ok, h, o, Some r).
Proof.
    unfold ReadFromMongoDB. cbv zeta. cbn [mk_valid mk_count mk_pos mk_idx mk_apply orb andb]. intros E.
    apply bind_inv in E. destruct E as ([[[ok' h'] hs] data] & RD & E). rewrite RD. cbn [obind]. destruct ok'; cbn [negb] in E |- *; [|discriminate].
    repeat match type of E with obind ?t _ = Ok _ => let x := fresh "x" in let Q := fresh "Q" in destruct t as [x| |] eqn:Q; cbn [obind] in E |- *; try discriminate E end.
    destruct (_ && negb _) eqn:C1; [discriminate|].
    match type of E with context [?n =? mk_valid v] => destruct (Z.eqb_spec n (mk_valid v)) as [EQ|NE]; cbv beta iota in E |- * end.
    - destruct (_ && (_ || _)); [discriminate|].
      repeat match type of E with obind ?t _ = Ok _ => let x := fresh "x" in let Q := fresh "Q" in destruct t as [x| |] eqn:Q; cbn [obind] in E |- *; try discriminate E end.
      rewrite andb_false_r in E |- *. injection E as <- <- <- <-.
      match goal with Q : at_get h' K_CELLSNUM = Ok ?c |- _ => exists c; unfold at_get in Q; destruct (lookup h' K_CELLSNUM); [injection Q as Q; subst; auto|discriminate] end.
    - exfalso. cbn [isnull orb andb] in E. rewrite andb_true_r in E. match type of E with (if negb ?b then _ else _) = _ => destruct b; cbn [negb] in E; [|discriminate] end.
      inv_bind E. cbn [andb] in E. cbn [obind negb] in E. discriminate E.
Qed.

Variables (M : Type) (m : raster M) (ix : list Z) (msubs : list (Z * subset D)) (masked : raster num -> outcome (list (Z * subset D))) (cells : Z -> list (Z * Z)).
Hypotheses (CM : compact m ix) (VW : view_of v m) (MS : mask_subsets m msubs cells).

Lemma read_subsets ok h o r c : calc = true -> maskext = true -> ReadFromMongoDB pick feq s ord st name calc (Some v) maskext dflt nv opts = Ok (ok, h, o, Some r) ->
  lookup h K_CELLSNUM = Some c -> f_int c = Ok (r_ncells m) ->
  ReadWithSubsets pick feq s ord st name calc v msubs masked maskext dflt nv opts =
    Ok (true, h, o, Some r, map (fun ks => (fst ks, relayered (r_nlyrs r) (snd ks))) msubs).
Proof using VW MS.
  intros C1 C2 E L F. pose proof VW as (V1 & _). rewrite <- V1 in F. pose proof (read_positions _ _ _ _ _ C1 C2 E L F) as B.
  destruct (read_taken _ _ _ _ E B) as (-> & _).
  unfold ReadWithSubsets. rewrite E. cbn [obind]. rewrite B. cbn [obind].
  rewrite (omapm_ok _ (fun ks => (fst ks, relayered (r_nlyrs r) (snd ks)))); [reflexivity|].
  intros [k x] I. destruct MS as [_ H]. destruct (H k x I) as [DS DF]. cbn [fst snd]. rewrite (copy_ok m x (cells k) _ DS DF). reflexivity.
Qed.

(** The window and the local positions say which cells a subset stands for. *)
Lemma cells_unique {T1 T2} (x : raster T1) (y : raster T2) (z : subset D) lyrs cs ds : MaskSubSpec.describes x z cs -> MaskSubSpec.describes y (relayered lyrs z) ds -> cs = ds.
Proof using.
  intros (g & lp & li & S1 & _ & E1 & _) (g' & lp' & li' & S2 & _ & E2 & _). destruct S1 as (_ & P1 & _), S2 as (_ & P2 & _).
  cbn [relayered s_lpos s_srow s_scol] in *. rewrite P1 in P2. injection P2 as <-. rewrite E1 in E2. clear - E2.
  revert ds E2. induction cs as [|[a b] cs IH]; intros [|[a' b'] ds] E2; cbn in E2; try discriminate; [reflexivity|].
  injection E2 as E3 E4 E5. f_equal; [f_equal; lia|auto].
Qed.

Lemma read_elsewhere ok h o r c k x rc : calc = true -> maskext = true -> ReadFromMongoDB pick feq s ord st name calc (Some v) maskext dflt nv opts = Ok (ok, h, o, Some r) ->
  lookup h K_CELLSNUM = Some c -> f_int c = Ok (r_ncells m) -> r_cols r <> r_cols m ->
  In (k, x) msubs -> In rc (cells k) -> 0 < fst rc -> forall lyrs cs, ~ MaskSubSpec.describes r (relayered lyrs x) cs.
Proof using CM VW MS.
  clear masked. intros C1 C2 E L F NE I J P lyrs cs DR. pose proof VW as (V1 & V2 & V3 & V4). rewrite <- V1 in F. pose proof (read_positions _ _ _ _ _ C1 C2 E L F) as B.
  destruct (read_taken _ _ _ _ E B) as (_ & RP & RI & RC & RN). destruct MS as [_ H]. destruct (H k x I) as [DM _].
  pose proof (cells_unique m r x lyrs _ _ DM DR) as <-.
  destruct DM as (g & lp & li & S1 & F1 & _), DR as (g' & lp' & li' & S2 & F2 & _). destruct S1 as (G1 & _), S2 as (G2 & _). cbn [relayered s_global] in G2. rewrite G1 in G2. injection G2 as <-.
  assert (X : exists gi, indexes m gi rc /\ indexes r gi rc).
  { clear - F1 F2 J. revert F2. induction F1 as [|gi z gl cl A F1 IH]; intros F2; [destruct J|]. inversion F2; subst. destruct J as [<-|J]; [eauto|apply IH; assumption]. }
  destruct X as (gi & (IM & BM & PM & _) & (IR & BR & PR & _)).
  destruct (GetPosition_compact m ix _ _ CM IM) as [(q & P1 & _ & N1)|(P1 & _)]; rewrite PM in P1; injection P1 as P1; [|lia]. subst q.
  pose proof CM as (_ & _ & _ & _ & NC & _ & CC & PI & PP & SO & _).
  unfold GetPosition in PR. destruct (negb (ValidateRasterData r) || negb (ValidateRowCol r (fst rc) (snd rc))); [injection PR; lia|].
  rewrite RC, RP, RI, V3, V4, PP, PI, RN, V2, NC in PR. cbn [isnull negb orb deref obind] in PR. rewrite Nat2Z.id in PR.
  destruct (search_all ix (r_cols r * fst rc + snd rc) SO) as [(q & E1 & _ & N2)|(E1 & _)]; rewrite E1 in PR; injection PR as PR; [|lia]. subst q.
  rewrite N1 in N2. injection N2 as N2. nia.
Qed.
End Read.
