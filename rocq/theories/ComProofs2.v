(** Proofs about combining subset files: all files of a data set, all data sets. *)
From Coq Require Import ZArith QArith List Bool Lia Sorted ZifyBool ZifyNat Permutation.
From Verif Require Import Base ListLib RasterModel RasterSpec RasterProofs RasterProofs2 RasterProofs3 CoordModel SubsetModel SubsetSpec SubsetProofs SubsetProofs2 SubsetProofs3 SubsetProofs4 SubsetProofs5 SubsetProofs6 ComModel ComSpec ComProofs.
Import ListNotations.
Open Scope Z_scope.
Open Scope outcome_scope.

Lemma fitting_cons {T} (feq : T -> T -> bool) k n (f : infile T) files :
  fitting feq k n (f :: files) = match fitting feq k n files with
                                 | Some vs => Some vs
                                 | None => if fits feq k n f then option_map (file_values feq) (i_ras f) else None
                                 end.
Proof.
  assert (G : forall l, (forall h, In h l -> fits feq k n h = true) ->
    match rev (filter (fits feq k n) (f :: l)) with h :: _ => option_map (file_values feq) (i_ras h) | [] => None end =
    match rev l with
    | h :: _ => option_map (file_values feq) (i_ras h)
    | [] => if fits feq k n f then option_map (file_values feq) (i_ras f) else None
    end).
  { intros l A. assert (FL : filter (fits feq k n) l = l).
    { clear - A. induction l as [|h l IH]; [reflexivity|]. cbn [filter]. rewrite (A h ltac:(left; reflexivity)). f_equal. apply IH. intros x Hx. apply A. right. exact Hx. }
    cbn [filter]. destruct (fits feq k n f); rewrite FL; cbn [rev]; [|destruct (rev l); reflexivity]. destruct (rev l); reflexivity. }
  unfold fitting. specialize (G (filter (fits feq k n) files) ltac:(intros h Hh; apply filter_In in Hh; apply Hh)).
  assert (FF : filter (fits feq k n) (f :: filter (fits feq k n) files) = filter (fits feq k n) (f :: files)).
  { cbn [filter]. assert (X : filter (fits feq k n) (filter (fits feq k n) files) = filter (fits feq k n) files).
    { clear. induction files as [|h l IH]; [reflexivity|]. cbn [filter]. destruct (fits feq k n h) eqn:E; [cbn [filter]; rewrite E, IH; reflexivity|exact IH]. }
    rewrite X. reflexivity. }
  rewrite FF in G. rewrite G. destruct (rev (filter (fits feq k n) files)) as [|h l] eqn:E; [reflexivity|].
  assert (Hh : In h (filter (fits feq k n) files)) by (apply in_rev; rewrite E; left; reflexivity). apply filter_In in Hh. destruct Hh as [_ Hh].
  unfold fits in Hh. destruct (i_ras h); [reflexivity|discriminate].
Qed.

Lemma fitting_length {T} (feq : T -> T -> bool) k n (files : list (infile T)) vs : fitting feq k n files = Some vs -> Z.of_nat (length vs) = n.
Proof.
  induction files as [|f l IH]; [discriminate|]. rewrite fitting_cons. destruct (fitting feq k n l); [exact IH|].
  unfold fits. destruct (i_ras f) as [q|]; [|discriminate]. destruct ((i_id f =? k) && (Z.of_nat (length (file_values feq q)) =? n)) eqn:E; [|discriminate].
  cbn [option_map]. intros [= <-]. lia.
Qed.

Lemma refill_ext {D} (f g : Z * subset D -> subset D) subs : (forall ks, In ks subs -> f ks = g ks) -> refill f subs = refill g subs.
Proof. intros H. unfold refill. apply map_ext_in. intros ks Hk. rewrite (H ks Hk). reflexivity. Qed.

Lemma zfind_refill {D} (f : Z * subset D -> subset D) k : forall subs, zfind (refill f subs) k = option_map (fun s => f (k, s)) (zfind subs k).
Proof.
  induction subs as [|[k' s] l IH]; [reflexivity|]. cbn [refill map zfind fst]. destruct (k =? k') eqn:E; [|exact IH].
  assert (k = k') by lia. subst. reflexivity.
Qed.

Lemma zfind_combine {A} (x : A) : forall (l : list Z) (vs : list A) i k, NoDup l -> nth_error l i = Some k -> nth_error vs i = Some x -> zfind (combine l vs) k = Some x.
Proof.
  induction l as [|a l IH]; intros vs i k N E V; [destruct i; discriminate|]. destruct vs as [|v vs]; [destruct i; discriminate|].
  cbn [combine zfind]. inversion N as [|? ? NI N']; subst. destruct i as [|i].
  - injection E as ->. injection V as ->. rewrite Z.eqb_refl. reflexivity.
  - cbn in E, V. destruct (k =? a) eqn:Q; [|eapply IH; eauto]. exfalso. apply NI. assert (a = k) by lia. subst. eapply nth_error_In; eauto.
Qed.

Section Item.
Context {T D : Type}.
Variable feq : T -> T -> bool.
Variable toint : T -> option Z.
Variable toD : T -> D.
Variable dNODATA : D.
Variable r : raster T.
Variable ix : list Z.
Variable groups : list (Z * Z).
Variable subs : list (Z * subset D).
Hypothesis KS : ksorted subs.

(** Subsets that came from [subs] by filling. *)
Definition good (f : Z * subset D -> subset D) : Prop := keeps_cells f /\ forall ks, In ks subs -> sized (f ks).

Definition after (files : list (infile T)) (f : Z * subset D -> subset D) (ks : Z * subset D) : subset D :=
  match fitting feq (fst ks) (s_n (snd ks)) files with Some vs => filled toD (f ks) vs | None => f ks end.

Lemma good_after files f : good f -> good (after files f).
Proof using Type.
  clear KS. intros [K S]. split.
  - intros ks. unfold after. destruct (fitting feq (fst ks) (s_n (snd ks)) files); [|apply K]. split; cbn [filled set_sdata s_global s_n]; apply K.
  - intros ks I. unfold after. destruct (fitting feq (fst ks) (s_n (snd ks)) files) as [vs|] eqn:E; [|apply S, I]. apply fitting_length in E.
    destruct (S ks I) as [P _]. split; cbn [filled set_sdata s_n s_data]; [exact P|]. rewrite map_length. rewrite (proj2 (K ks)). exact E.
Qed.

Lemma put_files : forall files f, good f -> usable_files feq (map fst subs) files ->
  ofold (put_file feq toD dNODATA) files (refill f subs) = Ok (refill (after files f) subs).
Proof using KS.
  induction files as [|h files IH]; intros f G U; [reflexivity|]. cbn [ofold].
  assert (U' : usable_files feq (map fst subs) files) by (intros x Hx; apply U; right; exact Hx).
  assert (SKIP : (forall ks, In ks subs -> fits feq (fst ks) (s_n (snd ks)) h = false) ->
    Ok (refill (after files f) subs) = Ok (refill (after (h :: files) f) subs) :> outcome (list (Z * subset D))).
  { intros F. f_equal. apply refill_ext. intros ks I. unfold after. rewrite fitting_cons, (F ks I).
    destruct (fitting feq (fst ks) (s_n (snd ks)) files); reflexivity. }
  destruct (zfind subs (i_id h)) as [s|] eqn:Z.
  - destruct (i_ras h) as [q|] eqn:Q.
    + pose proof (zfind_In _ _ _ Z) as I0. assert (US : usable_file feq h) by (apply U; [left; reflexivity|apply in_map_iff; exists (i_id h, s); auto]).
      rewrite (put_usable feq toD dNODATA (refill f subs) h (f (i_id h, s)) q); [|rewrite zfind_refill, Z; reflexivity|exact Q|apply G, I0|exact US].
      cbn [obind].
      assert (E1 : replace_sub (refill f subs) (i_id h) (if Z.of_nat (length (file_values feq q)) =? s_n (f (i_id h, s)) then filled toD (f (i_id h, s)) (file_values feq q) else f (i_id h, s))
                 = refill (after [h] f) subs).
      { unfold replace_sub, refill. rewrite map_map. cbn [fst snd]. apply map_ext_in. intros [k' s'] Hk. cbn [fst]. f_equal.
        unfold after. rewrite fitting_cons. cbn [fst snd fitting filter rev]. unfold fits. rewrite Q.
        destruct (k' =? i_id h) eqn:E.
        - assert (k' = i_id h) by lia. subst k'. pose proof (In_zfind _ _ _ KS Hk) as Z'. rewrite Z in Z'. injection Z' as <-.
          rewrite Z.eqb_refl. cbn [andb]. rewrite (proj2 (proj1 G (i_id h, s))). cbn [snd].
          destruct (Z.of_nat (length (file_values feq q)) =? s_n s); reflexivity.
        - replace (i_id h =? k') with false by lia. reflexivity. }
      rewrite E1. rewrite (IH (after [h] f)); [|apply good_after, G|exact U']. f_equal. apply refill_ext. intros ks I. unfold after.
      rewrite (fitting_cons feq _ _ h files). rewrite (fitting_cons feq _ _ h []).
      change (fitting feq (fst ks) (s_n (snd ks)) []) with (@None (list T)). cbv iota.
      destruct (fitting feq (fst ks) (s_n (snd ks)) files) as [vs|]; [|reflexivity].
      destruct (if fits feq (fst ks) (s_n (snd ks)) h then option_map (file_values feq) (i_ras h) else None); reflexivity.
    + replace (put_file feq toD dNODATA (refill f subs) h) with (Ok (refill f subs)) by (unfold put_file; rewrite zfind_refill, Z, Q; reflexivity).
      cbn [obind]. rewrite (IH f G U'). apply SKIP. intros ks _. unfold fits. rewrite Q. reflexivity.
  - replace (put_file feq toD dNODATA (refill f subs) h) with (Ok (refill f subs)) by (unfold put_file; rewrite zfind_refill, Z; reflexivity).
    cbn [obind]. rewrite (IH f G U'). apply SKIP. intros ks I. unfold fits.
    destruct (i_ras h); [|reflexivity]. apply zfind_none in Z. destruct (i_id h =? fst ks) eqn:E; [|reflexivity]. exfalso. apply Z.
    assert (i_id h = fst ks) by lia. rewrite H. apply in_map, I.
Qed.

(** All subsets marked as not usable. *)
Definition off (f : Z * subset D -> subset D) (ks : Z * subset D) : subset D :=
  set_sdata (f ks) (s_lyrs (f ks)) (s_data (f ks)) (s_data2 (f ks)) false.

Lemma unusable_refill f : all_unusable (refill f subs) = refill (off f) subs.
Proof using Type. clear KS. unfold all_unusable, refill. rewrite map_map. reflexivity. Qed.

Lemma good_off f : good f -> good (off f).
Proof using Type. clear KS. intros [K S]. split; [intros ks; apply K|]. intros ks I. apply (S ks I). Qed.

(** What a data set finds and leaves. *)
Definition item_fill (files : list (infile T)) (f : Z * subset D -> subset D) := after files (off f).

Hypothesis C : compact r ix.
Notation cells := (cells feq toint r groups).
Notation all := (all r).
Notation final := (final (D := D) r ix).
Hypothesis ZF : forall k, zfind subs k = opt final (cells k all).
Notation shape := (subs_shape feq toint r ix groups subs KS ZF).

Variable feqD : D -> D -> bool.
Variable ofD : D -> outcome T.
Variable dv : D.
Variable dfv : T.
Hypothesis RT : forall v, ofD (toD v) = Ok v.
Hypothesis DN : feqD dNODATA dNODATA = true.
Hypothesis DV : ofD dv = Ok dfv.

Lemma item_usable files f ks : s_usable (item_fill files f ks) = match fitting feq (fst ks) (s_n (snd ks)) files with Some _ => true | None => false end.
Proof using Type. clear KS. unfold item_fill, after. destruct (fitting feq (fst ks) (s_n (snd ks)) files); reflexivity. Qed.

Lemma item_filled files f ks vs : fitting feq (fst ks) (s_n (snd ks)) files = Some vs -> item_fill files f ks = filled toD (off f ks) vs.
Proof using Type. clear KS. unfold item_fill, after. intros ->. reflexivity. Qed.

Lemma item_layers files f : subset_layers true (refill (item_fill files f) subs) (-1) =
  Some (if existsb (fun ks => s_usable (item_fill files f ks)) subs then 1 else -1).
Proof using Type.
  clear KS ZF C RT DN DV.
  assert (G1 : forall l, subset_layers true (refill (item_fill files f) l) 1 = Some 1).
  { induction l as [|[k s] l IH]; [reflexivity|]. cbn [refill map subset_layers fst]. rewrite item_usable. cbn [fst snd].
    destruct (fitting feq k (s_n s) files) as [vs|] eqn:E; cbn [negb]; [|exact IH].
    rewrite (item_filled files f (k, s) vs E). cbn [filled set_sdata s_data isnull andb s_lyrs]. exact IH. }
  induction subs as [|[k s] l IH]; [reflexivity|]. cbn [refill map subset_layers fst existsb]. rewrite item_usable. cbn [fst snd].
  destruct (fitting feq k (s_n s) files) as [vs|] eqn:E; cbn [negb orb]; [|exact IH].
  rewrite (item_filled files f (k, s) vs E). cbn [filled set_sdata s_data isnull andb s_lyrs]. change (-1 <? 0) with true. cbv iota.
  exact (G1 l).
Qed.

(** No file fits. *)
Lemma item_none files f : (forall ks, In ks subs -> fitting feq (fst ks) (s_n (snd ks)) files = None) ->
  PrepareCombSubsetData feqD toint toD ofD dNODATA r dv (refill (item_fill files f) subs) false true [] dNODATA = Ok None.
Proof using Type.
  clear KS ZF C RT DN DV. intros N. unfold PrepareCombSubsetData. destruct (refill (item_fill files f) subs) as [|x y] eqn:E; [reflexivity|]. rewrite <- E. clear x y E.
  cbn [recls_layers]. rewrite item_layers.
  replace (existsb (fun ks => s_usable (item_fill files f ks)) subs) with false.
  2:{ symmetry. apply Bool.not_true_is_false. intros X. apply existsb_exists in X. destruct X as (ks & I & U). rewrite item_usable, (N ks I) in U. discriminate. }
  reflexivity.
Qed.

Definition placed_value (files : list (infile T)) (k gi : Z) : T :=
  match fitting feq k (Z.of_nat (length (cells k all))) files with
  | Some vs => match zfind (combine (cells k all) vs) gi with Some v => v | None => r_nodata r end
  | None => dfv
  end.

Lemma item_some files f : good f -> (exists ks vs, In ks subs /\ fitting feq (fst ks) (s_n (snd ks)) files = Some vs) ->
  exists d,
  PrepareCombSubsetData feqD toint toD ofD dNODATA r dv (refill (item_fill files f) subs) false true [] dNODATA = Ok (Some (d, r_rows r * r_cols r, 1)) /\
  Z.of_nat (length d) = r_rows r * r_cols r /\
  (forall k vi row col, in_group feq toint r groups k vi -> cell_at r vi row col ->
     nth_error d (Z.to_nat (row * r_cols r + col)) =
     Some (match fitting feq k (Z.of_nat (length (cells k all))) files with
           | Some _ => placed_value files k vi
           | None => if feqD (toD (r_nodata r)) dv then r_nodata r else dfv
           end)) /\
  (forall row col, inside r row col -> (forall k vi, in_group feq toint r groups k vi -> ~ cell_at r vi row col) ->
     nth_error d (Z.to_nat (row * r_cols r + col)) = Some (r_nodata r)).
Proof using KS ZF C RT DN DV.
  intros G (ks1 & vs1 & I1 & F1). pose proof C as (CR & CC & CL & _).
  pose proof (good_after files _ (good_off _ G)) as [K1 _]. change (after files (off f)) with (item_fill files f) in K1.
  assert (NF : forall k, In (k, final (cells k all)) subs -> s_n (final (cells k all)) = Z.of_nat (length (cells k all))).
  { intros k _. destruct (final_fields (D := D) r ix (cells k all)) as (_ & N & _). exact N. }
  destruct (comb_marked feq toint r ix groups C subs KS ZF feqD toD ofD (item_fill files f)) with (lyrs := 1) (recls := @nil (Z * list D)) (def := dv)
    (W := fun k gi (l : Z) => placed_value files k gi) as (d & E & LD & A & B).
  - exact K1.
  - lia.
  - intros k i l gi Hk Ac Ei Bi Bl. unfold active in Ac. unfold comb_value, direct in *. rewrite item_usable in *. cbn [fst snd] in *. rewrite (NF k Hk) in *.
    unfold placed_value. destruct (fitting feq k (Z.of_nat (length (cells k all))) files) as [vs|] eqn:FT; cbn [negb andb orb] in *.
    + unfold item_fill, after. cbn [fst snd]. rewrite (NF k Hk), FT. replace (1 <? 1) with false by lia. cbn [andb]. rewrite Z.eqb_refl.
      cbn [filled set_sdata s_data isnull negb andb deref obind]. pose proof (fitting_length _ _ _ _ _ FT) as LV.
      destruct (nth_error vs (Z.to_nat i)) as [v|] eqn:EV.
      2:{ apply nth_error_None in EV. assert (Z.to_nat i < length (cells k all))%nat by (apply nth_error_Some; congruence). lia. }
      rewrite (aget_ok _ i (toD v) Bi); [|rewrite nth_error_map, EV; reflexivity]. cbn [obind]. rewrite RT. cbn [obind].
      rewrite (zfind_combine v (cells k all) vs (Z.to_nat i) gi); [reflexivity|apply sorted_NoDup, cells_sorted|exact Ei|exact EV].
    + rewrite Ac, DV. reflexivity.
  - rewrite Z.mul_1_r in *. exists d. split; [|split; [exact LD|split]].
    + unfold PrepareCombSubsetData. change (map (fun ks => (fst ks, item_fill files f ks)) subs) with (refill (item_fill files f) subs) in E.
      destruct (refill (item_fill files f) subs) as [|x y] eqn:EX; [destruct subs; [destruct I1|discriminate]|]. rewrite <- EX in *. clear x y EX.
      cbn [recls_layers]. rewrite item_layers.
      replace (existsb (fun ks => s_usable (item_fill files f ks)) subs) with true.
      2:{ symmetry. apply existsb_exists. exists ks1. split; [exact I1|]. rewrite item_usable, F1. reflexivity. }
      rewrite DN. replace ((1 <? 0) && (0 <? -1)) with false by lia. replace (1 <? 0) with false by lia. rewrite Z.mul_1_r.
      unfold init1d. replace (r_rows r * r_cols r <=? 0) with false by nia. rewrite E. reflexivity.
    + intros k vi row col I Hc. specialize (A k vi row col 0 I Hc ltac:(lia)). replace (row * r_cols r + col) with ((row * r_cols r + col) * 1 + 0) by lia. rewrite A.
      unfold active, direct. rewrite item_usable. cbn [fst snd].
      pose proof (proj2 (cells_In feq toint r groups k vi) I) as Hi.
      assert (Hin : In (k, final (cells k all)) subs) by (apply shape; split; [reflexivity|intros X; rewrite X in Hi; destruct Hi]).
      rewrite (NF k Hin). destruct (fitting feq k (Z.of_nat (length (cells k all))) files) as [vs|] eqn:FT; cbn [negb andb orb]; [reflexivity|].
      unfold placed_value. rewrite FT. destruct (feqD (toD (r_nodata r)) dv); reflexivity.
    + intros row col I N. specialize (B row col 0 I ltac:(lia) N). replace (row * r_cols r + col) with ((row * r_cols r + col) * 1 + 0) by lia. exact B.
Qed.
End Item.
