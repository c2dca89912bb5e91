(** Reading with a mask that has another number of cells. *)
From Coq Require Import ZArith QArith List Bool Lia Sorted.
From Verif Require Import Base ListLib StrModel MapModel BasicModel RasterModel RasterSpec RasterProofs CoordModel FloatModel CoordFloatModel TypeModel MongoModel CopyModel NumModel AscModel CellModel GdalModel MaskModel SubsetModel SubsetSpec SubsetProofs MaskSubModel MaskSubSpec MaskSubProofs MaskSubProofs2 MaskSubProofs3 GridfsModel GridfsSpec GridMaskModel GridMaskSpec GridMaskProofs.
Import ListNotations.
Open Scope Z_scope.
Open Scope outcome_scope.

Section Masked.
Context {D : Type}.
Variables (pick : list gfile -> option gfile) (feq : num -> num -> bool) (s : rdt) (ord : list nat) (st : list gfile) (name : bytes)
  (dflt nv : num) (opts : smap bytes).

Lemma read_masking ext h o r : ReadFromMongoDB pick feq s ord st name false None ext dflt nv opts = Ok (true, h, o, Some r) ->
  forall calc maskext (v : mask_view), calc = false \/ maskext = false \/ mk_valid v <> r_rows r * r_cols r ->
  by_positions calc maskext v h = Ok false /\
  ReadFromMongoDB pick feq s ord st name calc (Some v) maskext dflt nv opts =
    let* m := mk_apply v (flagged calc maskext r) in Ok (0 <=? snd m, h, o, Some (fst m)).
Proof.
  intros E calc maskext v NT. unfold by_positions. revert E. unfold ReadFromMongoDB. cbv zeta. cbn [orb andb]. intros E.
  apply bind_inv in E. destruct E as ([[[ok' h'] hs] data] & RD & E). rewrite RD. cbn [obind]. cbv beta iota in E. destruct ok'; cbn [negb] in E |- *; [|discriminate].
  repeat match type of E with obind ?t _ = Ok _ => let x := fresh "x" in let Q := fresh "Q" in destruct t as [x| |] eqn:Q; cbn [obind] in E |- *; try discriminate E end.
  destruct (_ && negb _) eqn:C1; [discriminate|]. cbn [isnull orb andb] in E. rewrite andb_true_r in E.
  match type of E with (if negb ?b then _ else _) = _ => destruct b eqn:INC; cbn [negb] in E; [|discriminate] end.
  cbn [andb negb] in C1. apply negb_false_iff in C1. apply Z.eqb_eq in C1.
  destruct data as [d|]; cbn [deref obind] in E; [|discriminate]. 
  cbn [andb negb] in E. rewrite andb_true_r in E.
  assert (F6 : x6 = x1 * x3) by (unfold imul in Q6; destruct (in_intb _) in Q6; congruence). subst x6 x10. rewrite Z.eqb_refl in E. cbn [negb] in E.
  match type of E with obind ?t _ = Ok _ => destruct t as [rr| |] eqn:QR; cbn [obind] in E; try discriminate E end.
  unfold CalcNoMask in E. cbn [r_calc obind fst snd r_rows r_cols set_ncells] in E. cbv zeta in E. cbn [obind fst snd] in E. injection E as <- <- ER.
  assert (RC : r_rows r * r_cols r = x1 * x3) by (rewrite <- ER; reflexivity). rewrite RC in NT.
  rewrite Q0. cbn [obind]. rewrite Q1. cbn [obind]. rewrite Q2. cbn [obind]. rewrite Q3. cbn [obind]. rewrite Q6. cbn [obind]. rewrite Q9. cbn [obind]. rewrite Q10. cbn [obind].
  rewrite Z.eqb_refl. cbn [negb]. rewrite !orb_false_r.
  assert (TF : calc && maskext && (x1 * x3 =? mk_valid v) = false).
  { destruct calc, maskext; cbn [andb]; try reflexivity. apply Z.eqb_neq. destruct NT as [N|[N|N]]; [discriminate|discriminate|congruence]. }
  rewrite TF. split; [reflexivity|]. cbn [andb negb isnull orb deref obind]. rewrite andb_true_r, QR. cbn [obind].
  rewrite <- ER. reflexivity.
Qed.

Lemma read_masking_subs ext h o r (msubs : list (Z * subset D)) masked : ReadFromMongoDB pick feq s ord st name false None ext dflt nv opts = Ok (true, h, o, Some r) ->
  forall calc maskext (v : mask_view), calc = false \/ maskext = false \/ mk_valid v <> r_rows r * r_cols r ->
  ReadWithSubsets pick feq s ord st name calc v msubs masked maskext dflt nv opts =
    let* m := mk_apply v (flagged calc maskext r) in let* subs := masked (flagged calc maskext r) in Ok (0 <=? snd m, h, o, Some (fst m), subs).
Proof.
  intros E calc maskext v NT. unfold ReadWithSubsets. destruct (read_masking ext h o r E calc maskext v NT) as [B ->].
  destruct (mk_apply v (flagged calc maskext r)) as [m| |]; cbn [obind]; try reflexivity. rewrite B. cbn [obind].
  destruct (read_masking ext h o r E calc maskext (mkMask (mk_valid v) (mk_count v) (mk_pos v) (mk_idx v) (fun r => Ok (r, 0))) NT) as [_ ->]. reflexivity.
Qed.
End Masked.

Lemma flagged_value {T} c e (r : raster T) i j l : r_pos r = None -> r_posidx r = None -> GetValue (flagged c e r) i j l = GetValue r i j l.
Proof. intros P Q. unfold GetValue. cbn [flagged r_pos r_posidx r_calc]. rewrite P, Q. cbn [isnull negb orb]. rewrite !andb_false_r. reflexivity. Qed.
