(** C145: combining subset files with the tool. *)
From Coq Require Import ZArith QArith Ascii String List Bool Lia Sorted Permutation.
From Verif Require Import Base ListLib StrModel StrSpec StrProofs FsModel FsSpec FsProofs AppProofs FsProps ToolSpec RasterModel RasterSpec RasterProofs RasterProofs2 CoordModel
  SubsetModel SubsetSpec SubsetProofs6 SubsetProps ComModel ComSpec ComProofs ComProofs2 ComProofs3.
Import ListNotations.
Open Scope Z_scope.
Open Scope outcome_scope.

(** ** C145. Combining one data set, after any other data sets have been combined with the
    same mask: one file on the grid of the mask. A cell of a subset gets the value of the
    same rank in the last file given for the subset that has as many values as
    the subset has cells, the default value if there is none; other cells get NoData. If no
    subset has a fitting file, nothing is written. *)
Theorem C145_item : forall (T D : Type) (feq : T -> T -> bool) (feqD : D -> D -> bool) (toint : T -> option Z) (toD : T -> D) (ofD : D -> outcome T)
    (dNODATA : D) write_ok (r : raster T) ix groups ord (subs : list (Z * subset D)) earlier dv dfv files,
  compact r ix -> zones_fit feq toint r -> BuildSubSet feq toint ord r [] groups = Ok (r, subs, true) ->
  (forall v, ofD (toD v) = Ok v) -> feqD dNODATA dNODATA = true ->
  (forall e fs, In (e, fs) earlier -> (exists v, ofD e = Ok v) /\ usable_files feq (map fst subs) fs) ->
  ofD dv = Ok dfv -> usable_files feq (map fst subs) files ->
  exists subs1 subs2 log flag,
  combine_items feq feqD toint toD ofD dNODATA write_ok r subs earlier = Ok subs1 /\
  combine_item feq feqD toint toD ofD dNODATA write_ok r subs1 dv files = Ok (subs2, (log, flag)) /\
  ((forall k s, In (k, s) subs -> fitting feq k (s_n s) files = None) -> log = [] /\ flag = false) /\
  ((exists k s vs, In (k, s) subs /\ fitting feq k (s_n s) files = Some vs) ->
   exists q, log = [q] /\ flag = write_ok [] q /\ q_lyr q = 0 /\ q_lyrs q = 1 /\ q_geo q = geo_of r /\
     Z.of_nat (length (q_data q)) = r_rows r * r_cols r /\
     (forall k s g i vi row col, In (k, s) subs -> s_global s = Some g -> nth_error g i = Some vi -> cell_at r vi row col ->
        nth_error (q_data q) (Z.to_nat (row * r_cols r + col)) =
        match fitting feq k (s_n s) files with
        | Some vs => nth_error vs i
        | None => Some (if feqD (toD (r_nodata r)) dv then r_nodata r else dfv)
        end) /\
     (forall row col, inside r row col -> (forall k s g vi, In (k, s) subs -> s_global s = Some g -> In vi g -> ~ cell_at r vi row col) ->
        nth_error (q_data q) (Z.to_nat (row * r_cols r + col)) = Some (r_nodata r))).
Proof.
  intros T D feq feqD toint toD ofD dNODATA write_ok r ix groups ord subs earlier dv dfv files C F E RT DN EA DV U.
  pose proof (good_start feq toint r ix groups ord subs C F E) as G.
  destruct (items_run feq feqD toint toD ofD dNODATA write_ok r ix groups ord subs C F E RT DN earlier (fun ks => snd ks) G) as (f & Gf & R).
  { apply Forall_forall. intros [e fs] I. apply (EA e fs I). }
  rewrite refill_start in R.
  destruct (item_run feq feqD toint toD ofD dNODATA write_ok r ix groups ord subs C F E RT DN f dv dfv files Gf U DV) as (log & flag & I & N & S).
  exists (refill f subs), (refill (item_fill feq toD files f) subs), log, flag. split; [exact R|]. split; [exact I|]. split.
  - intros A. apply N. apply Bool.not_true_is_false. intros X. apply existsb_exists in X. destruct X as ([k s] & Ik & X). cbn [fst snd] in X. rewrite (A k s Ik) in X. discriminate.
  - intros (k & s & vs & Ik & Fk). apply S. apply existsb_exists. exists (k, s). split; [exact Ik|]. cbn [fst snd]. rewrite Fk. reflexivity.
Qed.
Print Assumptions C145_item.

(** Files carrying the values of subsets, none of them NoData: the combined file has these
    values in the subsets given, the default value in the others. *)
Theorem C145_round_trip : forall (T D : Type) (feq : T -> T -> bool) (feqD : D -> D -> bool) (toint : T -> option Z) (toD : T -> D) (ofD : D -> outcome T)
    (dNODATA : D) write_ok (r : raster T) ix groups ord (subs : list (Z * subset D)) earlier dv dfv files (val : Z -> T),
  compact r ix -> zones_fit feq toint r -> BuildSubSet feq toint ord r [] groups = Ok (r, subs, true) ->
  (forall v, ofD (toD v) = Ok v) -> feqD dNODATA dNODATA = true ->
  (forall e fs, In (e, fs) earlier -> (exists v, ofD e = Ok v) /\ usable_files feq (map fst subs) fs) ->
  ofD dv = Ok dfv ->
  (forall f q s g, In f files -> i_ras f = Some q -> In (i_id f, s) subs -> s_global s = Some g ->
     carries feq r s val q /\ (forall vi, In vi g -> feq (val vi) (r_nodata q) = false) /\ schedule (s_n s) (i_ord f)) ->
  (exists f q s, In f files /\ i_ras f = Some q /\ In (i_id f, s) subs) ->
  exists subs1 subs2 q,
  combine_items feq feqD toint toD ofD dNODATA write_ok r subs earlier = Ok subs1 /\
  combine_item feq feqD toint toD ofD dNODATA write_ok r subs1 dv files = Ok (subs2, ([q], write_ok [] q)) /\
  q_geo q = geo_of r /\ Z.of_nat (length (q_data q)) = r_rows r * r_cols r /\
  (forall k s g vi row col, In (k, s) subs -> s_global s = Some g -> In vi g -> cell_at r vi row col ->
     ((exists f q, In f files /\ i_ras f = Some q /\ i_id f = k) -> nth_error (q_data q) (Z.to_nat (row * r_cols r + col)) = Some (val vi)) /\
     (~ (exists f q, In f files /\ i_ras f = Some q /\ i_id f = k) ->
        nth_error (q_data q) (Z.to_nat (row * r_cols r + col)) = Some (if feqD (toD (r_nodata r)) dv then r_nodata r else dfv))) /\
  (forall row col, inside r row col -> (forall k s g vi, In (k, s) subs -> s_global s = Some g -> In vi g -> ~ cell_at r vi row col) ->
     nth_error (q_data q) (Z.to_nat (row * r_cols r + col)) = Some (r_nodata r)).
Proof.
  intros T D feq feqD toint toD ofD dNODATA write_ok r ix groups ord subs earlier dv dfv files val C F E RT DN EA DV CA (f1 & q1 & s1 & If1 & Iq1 & Is1).
  assert (SH := built_shape feq toint r ix groups ord subs C F E).
  assert (FV : forall f q s g, In f files -> i_ras f = Some q -> In (i_id f, s) subs -> s_global s = Some g -> file_values feq q = map val g).
  { intros f q s g I Q Is SG. destruct (CA f q s g I Q Is SG) as (K & NN & _).
    rewrite (carried feq toint r ix groups ord subs (i_id f) s g val q C F E Is SG K). f_equal.
    clear - NN. induction g as [|a g IH]; [reflexivity|]. cbn [filter]. rewrite (NN a) by (left; reflexivity). cbn [negb]. f_equal. apply IH. intros vi H. apply NN. right. exact H. }
  assert (LEN : forall k s g, In (k, s) subs -> s_global s = Some g -> s_n s = Z.of_nat (length g)).
  { intros k s g I SG. destruct (SH k s I) as (SG' & N & _). congruence. }
  assert (U : usable_files feq (map fst subs) files).
  { intros f I Ik. apply in_map_iff in Ik. destruct Ik as ([k s] & K & Is). cbn [fst] in K. subst k. unfold usable_file. destruct (i_ras f) as [q|] eqn:Q; [|exact Logic.I].
    destruct (SH _ _ Is) as (SG & N & NE & _). destruct (CA f q s _ I Q Is SG) as (K & _ & SC). rewrite (FV f q s _ I Q Is SG), map_length, <- N.
    split; [apply K|]. split; [|exact SC]. intros X. apply NE. apply map_eq_nil in X. exact X. }
  assert (FIT : forall k s g, In (k, s) subs -> s_global s = Some g ->
    ((exists f q, In f files /\ i_ras f = Some q /\ i_id f = k) -> fitting feq k (s_n s) files = Some (map val g)) /\
    (~ (exists f q, In f files /\ i_ras f = Some q /\ i_id f = k) -> fitting feq k (s_n s) files = None)).
  { intros k s g Is SG. clear f1 q1 s1 If1 Iq1 Is1 U CA EA. assert (FV' : forall f q, In f files -> i_ras f = Some q -> i_id f = k -> file_values feq q = map val g).
    { intros f q I Q K. apply (FV f q s g I Q); [rewrite K; exact Is|exact SG]. }
    rewrite (LEN k s g Is SG). clear FV LEN SH. induction files as [|h l IH].
    - split; [intros (f & q & [] & _)|reflexivity].
    - rewrite fitting_cons. destruct IH as [IH1 IH2]; [intros f q I; apply FV'; right; exact I|].
      assert (DEC : (exists f q, In f l /\ i_ras f = Some q /\ i_id f = k) \/ ~ (exists f q, In f l /\ i_ras f = Some q /\ i_id f = k)).
      { clear. induction l as [|h l IH]; [right; intros (f & q & [] & _)|]. destruct IH as [(f & q & A & B)|N]; [left; exists f, q; split; [right; exact A|exact B]|].
        destruct (i_ras h) as [q|] eqn:Q; [destruct (Z.eq_dec (i_id h) k)|].
        - left. exists h, q. split; [left; reflexivity|]. auto.
        - right. intros (f & q' & [<-|A] & B & B'); [congruence|]. apply N. eauto.
        - right. intros (f & q' & [<-|A] & B & B'); [congruence|]. apply N. eauto. }
      split.
      + intros (f & q & [<-|A] & Q & K).
        * destruct DEC as [Y|N]; [rewrite (IH1 Y); reflexivity|]. rewrite (IH2 N). unfold fits. rewrite Q. rewrite (FV' h q (or_introl eq_refl) Q K), map_length, Z.eqb_refl, K, Z.eqb_refl.
          cbn [andb option_map]. rewrite (FV' h q (or_introl eq_refl) Q K). reflexivity.
        * rewrite IH1; [reflexivity|]. exists f, q. auto.
      + intros N. rewrite IH2; [|intros (f & q & A & B); apply N; exists f, q; split; [right; exact A|exact B]]. unfold fits.
        destruct (i_ras h) as [q|] eqn:Q; [|reflexivity]. replace (i_id h =? k) with false; [reflexivity|]. symmetry. apply Z.eqb_neq. intros K. apply N. exists h, q. split; [left; reflexivity|]. auto. }
  destruct (C145_item T D feq feqD toint toD ofD dNODATA write_ok r ix groups ord subs earlier dv dfv files C F E RT DN EA DV U)
    as (subs1 & subs2 & log & flag & R1 & R2 & _ & S).
  destruct (SH _ _ Is1) as (SG1 & _). destruct S as (q & -> & -> & _ & _ & GE & L & V & O).
  { eexists _, s1, _. split; [exact Is1|]. apply (FIT _ _ _ Is1 SG1). eauto. }
  exists subs1, subs2, q. split; [exact R1|]. split; [exact R2|]. split; [exact GE|]. split; [exact L|]. split; [|exact O].
  intros k s g vi row col Is SG Iv Hc. apply In_nth_error in Iv. destruct Iv as [i Hi]. rewrite (V k s g i vi row col Is SG Hi Hc). destruct (FIT k s g Is SG) as [A B]. split; intros H.
  - rewrite (A H), nth_error_map, Hi. reflexivity.
  - rewrite (B H). reflexivity.
Qed.
Print Assumptions C145_round_trip.

(** A subset file that has a NoData value in a cell of its subset, and another value
    elsewhere: the whole subset gets the default value. *)
Theorem C145_lost_refuted : forall (T D : Type) (feq : T -> T -> bool) (feqD : D -> D -> bool) (toint : T -> option Z) (toD : T -> D) (ofD : D -> outcome T)
    (dNODATA : D) write_ok (r : raster T) ix groups ord (subs : list (Z * subset D)) dv dfv files f q k s g val vm vo,
  compact r ix -> zones_fit feq toint r -> BuildSubSet feq toint ord r [] groups = Ok (r, subs, true) ->
  (forall v, ofD (toD v) = Ok v) -> feqD dNODATA dNODATA = true -> ofD dv = Ok dfv ->
  usable_files feq (map fst subs) files ->
  In (k, s) subs -> s_global s = Some g -> In f files -> i_id f = k -> i_ras f = Some q -> carries feq r s val q ->
  (forall h, In h files -> i_id h = k -> h = f) ->
  In vm g -> feq (val vm) (r_nodata q) = true -> In vo g -> feq (val vo) (r_nodata q) = false ->
  exists subs' log flag, combine_item feq feqD toint toD ofD dNODATA write_ok r subs dv files = Ok (subs', (log, flag)) /\
  forall p, In p log -> forall row col, cell_at r vo row col ->
    nth_error (q_data p) (Z.to_nat (row * r_cols r + col)) = Some (if feqD (toD (r_nodata r)) dv then r_nodata r else dfv).
Proof.
  intros T D feq feqD toint toD ofD dNODATA write_ok r ix groups ord subs dv dfv files f q k s g val vm vo C F E RT DN DV U Is SG If Kf Qf CA ONE Im Vm Io Vo.
  assert (FT : fitting feq k (s_n s) files = None).
  { assert (NF : forall h, In h files -> fits feq k (s_n s) h = false).
    { intros h Ih. unfold fits. destruct (i_ras h) as [q'|] eqn:Q; [|reflexivity]. destruct (i_id h =? k) eqn:K; [|reflexivity]. apply Z.eqb_eq in K.
      rewrite (ONE h Ih K) in Q. rewrite Qf in Q. injection Q as <-. cbn [andb].
      rewrite (carried feq toint r ix groups ord subs k s g val q C F E Is SG CA), map_length. destruct (built_shape feq toint r ix groups ord subs C F E k s Is) as (SG' & N & _). rewrite SG' in SG. injection SG as SG. rewrite N, SG.
      assert (LT : (length (filter (fun vi => negb (feq (val vi) (r_nodata q))) g) < length g)%nat); [|apply Z.eqb_neq; lia].
      clear - Im Vm. assert (LE : forall l : list Z, (length (filter (fun vi => negb (feq (val vi) (r_nodata q))) l) <= length l)%nat).
      { induction l as [|b l IHl]; [apply le_n|]. cbn [filter]. destruct (negb (feq (val b) (r_nodata q))); cbn [length]; lia. }
      induction g as [|a g IH]; [destruct Im|]. cbn [filter]. destruct Im as [<-|Im]; [rewrite Vm; cbn [negb length]; pose proof (LE g); lia|].
      specialize (IH Im). destruct (negb (feq (val a) (r_nodata q))); cbn [length]; lia. }
    clear - NF. induction files as [|h l IH]; [reflexivity|]. rewrite fitting_cons, IH, NF; [reflexivity|left; reflexivity|]. intros x Hx. apply NF. right. exact Hx. }
  destruct (C145_item T D feq feqD toint toD ofD dNODATA write_ok r ix groups ord subs [] dv dfv files C F E RT DN (fun e fs (H : In (e, fs) []) => match H with end) DV U)
    as (subs1 & subs2 & log & flag & R1 & R2 & N & S).
  cbn [combine_items ofold] in R1. injection R1 as <-. exists subs2, log, flag. split; [exact R2|]. intros p Ip row col Hc. apply In_nth_error in Io. destruct Io as [i Hi].
  assert (DEC : (exists k s vs, In (k, s) subs /\ fitting feq k (s_n s) files = Some vs) \/ (forall k s, In (k, s) subs -> fitting feq k (s_n s) files = None)).
  { clear. induction subs as [|[k s] l IH]; [right; intros ? ? []|]. destruct (fitting feq k (s_n s) files) as [vs|] eqn:X.
    - left. exists k, s, vs. split; [left; reflexivity|exact X].
    - destruct IH as [(k' & s' & vs & I & Y)|N]; [left; exists k', s', vs; split; [right; exact I|exact Y]|]. right. intros k' s' [[= <- <-]|I]; [exact X|exact (N k' s' I)]. }
  destruct DEC as [Y|Y]; [|destruct (N Y) as [-> _]; destruct Ip].
  destruct (S Y) as (p' & -> & _ & _ & _ & _ & _ & V & _). destruct Ip as [<-|[]].
  rewrite (V k s g i vo row col Is SG Hi Hc), FT. reflexivity.
Qed.
Print Assumptions C145_lost_refuted.

(** A file for a subset that has no value but NoData: whatever files come before and
    after, destroying it is undefined behaviour. *)
Theorem C145_empty_refuted : forall (T D : Type) (feq : T -> T -> bool) (feqD : D -> D -> bool) (toint : T -> option Z) (toD : T -> D) (ofD : D -> outcome T)
    (dNODATA : D) write_ok (r : raster T) ix groups ord (subs : list (Z * subset D)) dv before f after q,
  compact r ix -> zones_fit feq toint r -> BuildSubSet feq toint ord r [] groups = Ok (r, subs, true) ->
  usable_files feq (map fst subs) before ->
  In (i_id f) (map fst subs) -> i_ras f = Some q -> grid_file q -> schedule 0 (i_ord f) ->
  (forall row col v, inside q row col -> GetValue q row col 1 = Ok v -> feq v (r_nodata q) = true) ->
  combine_item feq feqD toint toD ofD dNODATA write_ok r subs dv (before ++ f :: after) = UB.
Proof.
  intros T D feq feqD toint toD ofD dNODATA write_ok r ix groups ord subs dv before f after q C F E U If Q G SC NV.
  assert (FV : file_values feq q = []).
  { destruct (file_read q G) as (d & D0 & LD & RD). destruct G as [FG I2]. pose proof FG as (R1 & C1 & L1 & _). unfold file_values. rewrite D0.
    assert (A : forall v, In v d -> feq v (r_nodata q) = true).
    { intros v Iv. apply In_nth_error in Iv. destruct Iv as [i Hi]. assert (B : 0 <= Z.of_nat i < r_rows q * r_cols q).
      { assert (i < length d)%nat by (apply nth_error_Some; congruence). lia. }
      destruct (RD _ B) as (v' & N & RC). rewrite Nat2Z.id in N. assert (v' = v) by congruence. subst v'.
      pose proof (Z.mod_pos_bound (Z.of_nat i) (r_cols q) C1) as MB. pose proof (Z.div_mod (Z.of_nat i) (r_cols q) ltac:(lia)) as DM.
      assert (IN : inside q (Z.of_nat i / r_cols q) (Z.of_nat i mod r_cols q)).
      { split; [split; [apply Z.div_pos; lia|apply Z.div_lt_upper_bound; lia]|exact MB]. }
      apply (NV _ _ v IN). rewrite GetValue_full; [|exact FG|exact IN|split; lia]. rewrite <- RC. f_equal. lia. }
    clear - A. induction d as [|a d IH]; [reflexivity|]. cbn [filter]. rewrite (A a) by (left; reflexivity). cbn [negb]. apply IH. intros v H. apply A. right. exact H. }
  destruct (file_empty feq q (i_ord f) G FV SC) as (q' & SP & GD & DE).
  pose proof (good_start feq toint r ix groups ord subs C F E) as G0. destruct (built2 feq toint r ix groups ord subs C F E) as [KS ZF].
  unfold combine_item.
  assert (X : ofold (put_file feq toD dNODATA) (before ++ f :: after) (all_unusable subs) = UB); [|rewrite X; reflexivity].
  rewrite <- (refill_start subs) at 1. rewrite unusable_refill.
  assert (AP : forall l st st', ofold (put_file feq toD dNODATA) l st = Ok st' ->
    ofold (put_file feq toD dNODATA) (l ++ f :: after) st = ofold (put_file feq toD dNODATA) (f :: after) st').
  { induction l as [|h l IH]; intros st st' H; [injection H as <-; reflexivity|]. cbn [app ofold] in *. destruct (put_file feq toD dNODATA st h) as [st1| |]; try discriminate. cbn [obind] in *. apply IH, H. }
  rewrite (AP _ _ _ (put_files feq toD dNODATA subs KS before _ (good_off subs _ G0) U)). cbn [ofold].
  apply in_map_iff in If. destruct If as ([k s] & K & Is). cbn [fst] in K. subst k. apply (SubsetProofs.In_zfind _ _ _ KS) in Is.
  unfold put_file at 1. rewrite zfind_refill, Is, Q. cbn [option_map]. rewrite SP. cbn [obind fst]. rewrite GD. cbn [fst snd].
  match goal with |- context[SetData _ _ ?x (-1) None] => set (s' := x) end.
  assert (SD : SetData toD dNODATA s' (-1) (@None (list T)) = Ok (s', false)).
  { destruct (good_after feq toD subs before _ (good_off subs _ G0)) as [_ SZ]. apply SubsetProofs.zfind_In in Is. specialize (SZ _ Is). fold s' in SZ.
    destruct SZ as [P _]. unfold SetData. destruct (-1 =? s_n s') eqn:E1; [apply Z.eqb_eq in E1; lia|]. reflexivity. }
  rewrite SD. cbn [obind]. rewrite DE. reflexivity.
Qed.
Print Assumptions C145_empty_refuted.

(** Names: the file written for subset [k] of a name is taken for subset [k] again. *)
Theorem C145_names : forall (o : os) (f a d core suf : bytes) (k : Z),
  resolves o f a -> not_directory o a -> path_parts a d core suf -> suf <> [] -> dir_form o d -> in_int k ->
  let p := PrefixCoreFileName_int o f k "_" in
  resolves o p p -> id_of o p = Some k.
Proof.
  intros o f a d core suf k R N P S DF K p RP.
  assert (EP : p = (d ++ "/"%char :: (itoa k ++ "_"%char :: core) ++ "."%char :: suf)) by (exact (Prefix_parts o f a d core suf (itoa k) "_"%char R N P S DF)).
  assert (PP : path_parts p d (itoa k ++ "_"%char :: core) suf).
  { destruct P as (_ & NC & NS & ND). split; [exact EP|]. split; [|split; [exact NS|exact ND]]. intros I. apply in_app_iff in I. destruct I as [I|[I|I]].
    - revert I. apply not_in_itoa; [reflexivity|discriminate].
    - discriminate.
    - exact (NC I). }
  unfold id_of. rewrite (GetCore_parts o p p d (itoa k ++ "_"%char :: core) suf RP PP).
  assert (SP : exists l, SplitString_d (itoa k ++ "_"%char :: core) "_" = itoa k :: l).
  { assert (NU : ~ In "_"%char (itoa k)) by (apply not_in_itoa; [reflexivity|discriminate]).
    assert (SD : forall x, ~ In "_"%char x -> span_delim "_" (x ++ "_"%char :: core) = (x, Some core)).
    { induction x as [|c x IH]; intros H; [reflexivity|]. cbn [app span_delim]. rewrite IH by (intros I; apply H; right; exact I).
      destruct (ascii_dec c "_") as [Q|Q]; [exfalso; apply H; left; exact Q|reflexivity]. }
    unfold SplitString_d. destruct (itoa k ++ "_"%char :: core) as [|c0 t0] eqn:E0; [destruct (itoa k); discriminate|]. cbn [length split_loop]. rewrite <- E0.
    rewrite (SD _ NU). eexists. reflexivity. }
  destruct SP as [l ->]. rewrite (IsInt_itoa k K). reflexivity.
Qed.
Print Assumptions C145_names.

(** The mask of C28: subset 2 has three cells, subset 7 two. *)
Definition file2 : raster Z := FromArray (Some [-1; 20; 21; 22]) 2 2 (-1) (-9999) 10 100 200.
Definition file7 : raster Z := FromArray (Some [70; 71]) 1 2 (-1) (-9999) 10 100 200.
Definition run_com (items : list (Z * list (infile Z))) (dv : Z) (files : list (infile Z)) : outcome (list (list Z) * bool) :=
  let* b := BuildSubSet Z.eqb Some [] exc [] [] in
  let* subs := combine_items Z.eqb Z.eqb Some (fun v => v) Ok (-9999) (fun _ _ => true) (fst (fst b)) (snd (fst b)) items in
  let* x := combine_item Z.eqb Z.eqb Some (fun v => v) Ok (-9999) (fun _ _ => true) (fst (fst b)) subs dv files in
  Ok (map (@q_data Z) (fst (snd x)), snd (snd x)).

(** Both files, one file, none; a file of the wrong shape with three values; a file of
    another number. Earlier data sets leave nothing behind. *)
Example C145_ex :
  run_com [] 0 [mkIn 2 (Some file2) [0; 1; 2]%nat; mkIn 7 (Some file7) [1; 0]%nat] = Ok ([[70; -9999; 20; 71; 21; 22]], true) /\
  run_com [(0, [mkIn 2 (Some file2) [0; 1; 2]%nat])] 5 [mkIn 7 (Some file7) [1; 0]%nat] = Ok ([[70; -9999; 5; 71; 5; 5]], true) /\
  run_com [(0, [mkIn 2 (Some file2) [0; 1; 2]%nat])] 5 [mkIn 7 None []; mkIn 9 (Some file7) []] = Ok ([], false) /\
  run_com [] 5 [mkIn 2 (Some (FromArray (Some [1; 2; 3]) 3 1 (-1) (-9999) 10 0 0)) [0; 1; 2]%nat] = Ok ([[5; -9999; 1; 5; 2; 3]], true).
Proof. vm_compute. auto. Qed.

(** One NoData value inside the subset, and nothing but NoData. *)
Example C145_lost_ex :
  run_com [] 5 [mkIn 2 (Some (FromArray (Some [-1; 20; -1; 22]) 2 2 (-1) (-9999) 10 0 0)) [0; 1]%nat; mkIn 7 (Some file7) [0; 1]%nat]
    = Ok ([[70; -9999; 5; 71; 5; 5]], true) /\
  run_com [] 5 [mkIn 7 (Some file7) [0; 1]%nat; mkIn 2 (Some (FromArray (Some [-1; -1; -1; -1]) 2 2 (-1) (-9999) 10 0 0)) []] = UB.
Proof. vm_compute. auto. Qed.

(** The hypotheses of the round trip hold of the two files. *)
Example C145_carries_ex : exists (subs : list (Z * subset Z)) s2 s7,
  BuildSubSet Z.eqb Some [] exc [] [] = Ok (exc, subs, true) /\ In (2, s2) subs /\ In (7, s7) subs /\
  let val vi := nth (Z.to_nat vi) [70; 20; 71; 21; 22] 0 in
  carries Z.eqb exc s2 val file2 /\ carries Z.eqb exc s7 val file7.
Proof.
  eexists _, _, _.
  split; [vm_compute; reflexivity|]. split; [left; reflexivity|]. split; [right; left; reflexivity|]. cbv zeta.
  split; unfold carries, grid_file, full_grid.
  1,2: split; [split; [repeat (split; [vm_compute; congruence|]); vm_compute; split; [split; [reflexivity|eexists; split; reflexivity]|auto]|reflexivity]|].
  1,2: split; [reflexivity|]; split; [reflexivity|]; intros row col B1 B2.
  1,2: assert (R : row = 0 \/ row = 1) by (revert B1; cbv [win_rows s_erow s_srow]; lia).
  - assert (CC : col = 0 \/ col = 1) by (revert B2; cbv [win_cols s_ecol s_scol]; lia).
    destruct R as [-> | ->], CC as [-> | ->]; eexists; (split; [vm_compute; reflexivity|]); split;
      try (intros vi (g & [= <-] & I) (ps & EP & NE); vm_compute in EP; injection EP as <-; cbv [s_srow s_scol] in NE; cbn [In] in I;
           destruct I as [<-|[<-|[<-|[]]]]; vm_compute in NE; try discriminate; reflexivity);
      intros H; try reflexivity; exfalso.
    + apply (H 1); [eexists; split; [reflexivity|vm_compute; auto]|]. eexists. split; reflexivity.
    + apply (H 3); [eexists; split; [reflexivity|vm_compute; auto]|]. eexists. split; reflexivity.
    + apply (H 4); [eexists; split; [reflexivity|vm_compute; auto]|]. eexists. split; reflexivity.
  - assert (CC : col = 0) by (revert B2; cbv [win_cols s_ecol s_scol]; lia). subst col.
    destruct R as [-> | ->]; eexists; (split; [vm_compute; reflexivity|]); split;
      try (intros vi (g & [= <-] & I) (ps & EP & NE); vm_compute in EP; injection EP as <-; cbv [s_srow s_scol] in NE; cbn [In] in I;
           destruct I as [<-|[<-|[]]]; vm_compute in NE; try discriminate; reflexivity);
      intros H; try reflexivity; exfalso.
    + apply (H 0); [eexists; split; [reflexivity|vm_compute; auto]|]. eexists. split; reflexivity.
    + apply (H 2); [eexists; split; [reflexivity|vm_compute; auto]|]. eexists. split; reflexivity.
Qed.

(** "dem.asc" of subset -3. *)
Example C145_names_ex : id_of bare_os (PrefixCoreFileName_int bare_os (str "/d/dem_1.asc") (-3) "_") = Some (-3) /\ id_of bare_os (str "/d/dem_1.asc") = None.
Proof. vm_compute. auto. Qed.
