(** Subsets in GridFS: one file per subset, and back. *)
From Coq Require Import ZArith Ascii String List Bool Lia Sorted ZifyBool.
From Verif Require Import Base ListLib StrModel StrProofs MapModel MapProofs RasterModel RasterSpec RasterProofs BasicModel FloatModel CoordFloatModel TypeModel MongoModel MongoProofs CopyModel NumModel AscModel CellModel CellSpec GdalModel GridfsModel GridfsSpec GridfsProofs GridfsProofs2 GridfsProofs3 GridfsProofs6 SubsetModel SubsetSpec SubsetProofs5 SubGridModel SubGridSpec SubGridProofs.
Import ListNotations.
Open Scope Z_scope.
Open Scope outcome_scope.

Lemma itoa_inj j k : in_int j -> in_int k -> itoa j = itoa k -> j = k.
Proof. intros J K E. pose proof (IsInt_itoa j J) as A. rewrite E, (IsInt_itoa k K) in A. congruence. Qed.
Lemma name_inj j k name : in_int j -> in_int k -> subset_name j name = subset_name k name -> j = k.
Proof. intros J K E. unfold subset_name in E. apply app_inv_tail in E. apply itoa_inj; assumption. Qed.

Lemma pos_factors a b : 0 <= a -> 0 <= b -> 0 < a * b -> 0 < a /\ 0 < b.
Proof. intros. nia. Qed.
Lemma placed_win u g li : placed u g li -> 0 < win_rows u /\ 0 < win_cols u.
Proof. intros P. pose proof (placed_le u g li P) as PL. pose proof P as (_ & _ & _ & _ & _ & _ & _ & W1 & W2). apply pos_factors; [exact W1|exact W2|]. unfold win_rows, win_cols. lia. Qed.
Lemma int_parts a b n l : 0 < a -> 0 < b -> 0 < n <= a * b -> 0 < l -> in_int (a * b * l) -> in_int a /\ in_int b /\ in_int l /\ in_int n /\ in_int (n * l) /\ in_int (a * b).
Proof.
  intros A B N L [_ H]. unfold in_int, INT_MIN, INT_MAX in *.
  assert (a <= a * b) by nia. assert (b <= a * b) by nia. assert (a * b <= a * b * l) by nia. assert (l <= a * b * l) by nia. assert (n * l <= a * b * l) by nia. assert (0 < n * l) by nia. lia.
Qed.

(** ** The header *)
Definition sub_hdr (u : subset f64) (x y : f64) (rows : Z) (cs nd : f64) (h : smap f64) (L n : Z) : smap f64 :=
  UpdateMap (UpdateMap (subset_header u x y rows cs nd h) K_LAYERS (of_int L)) K_CELLSNUM (of_int n).
Definition keyed (h : smap f64) : Prop := NoDup (map fst h) /\ forall k, In k (map fst h) -> In k header_keys.

Lemma keyed_update h k v : keyed h -> In k header_keys -> keyed (UpdateMap h k v).
Proof.
  intros [N K] I. split; [apply UpdateMap_NoDup; exact N|]. intros k' J. destruct (lookup (UpdateMap h k v) k') eqn:E; [|apply lookup_none in E; contradiction].
  rewrite lookup_UpdateMap in E. destruct (beqb k k') eqn:B; [apply beqb_true in B; subst k'; exact I|]. apply K. apply lookup_found in E. change k' with (fst (k', f)). apply in_map. exact E.
Qed.
Lemma key_in k : In k [K_XLL; K_YLL; K_NODATA; K_NROWS; K_NCOLS; K_CELLSIZE; K_CELLSNUM; K_LAYERS] -> In k header_keys.
Proof. cbn [In]. intros H. repeat (destruct H as [<-|H]; [vm_compute; auto 12|]). destruct H. Qed.
Lemma sub_hdr_keyed u x y rows cs nd h L n : keyed h -> keyed (sub_hdr u x y rows cs nd h L n).
Proof.
  intros K. unfold sub_hdr, subset_header. cbv zeta. repeat (apply keyed_update; [|apply key_in; cbn [In]; auto 12]). exact K.
Qed.

Lemma sub_hdr_lookup u x y rows cs nd h L n k : In k header_keys ->
  lookup (sub_hdr u x y rows cs nd h L n) k =
  if beqb K_CELLSNUM k then Some (of_int n) else if beqb K_LAYERS k then Some (of_int L) else
  if beqb K_CELLSIZE k then Some cs else if beqb K_NCOLS k then Some (of_int (win_cols u)) else if beqb K_NROWS k then Some (of_int (win_rows u)) else
  if beqb K_NODATA k then Some nd else if beqb K_YLL k then Some (corner_y u rows y cs) else Some (corner_x u x cs).
Proof.
  intros I. unfold sub_hdr, subset_header. cbv zeta. rewrite !lookup_UpdateMap. unfold win_cols, win_rows, corner_x, corner_y.
  unfold header_keys in I. cbn [map In] in I. repeat (destruct I as [<-|I]; [reflexivity|]). destruct I.
Qed.

Lemma sub_storable u x y rows cs nd h L n o : keyed h -> object_options o ->
  fits_meta (str "XLLCENTER") (corner_x u x cs) -> fits_meta (str "YLLCENTER") (corner_y u rows y cs) -> fits_meta (str "CELLSIZE") cs ->
  in_int (win_rows u) -> in_int (win_cols u) -> in_int L -> in_int n ->
  storable (sub_hdr u x y rows cs nd h L n) o /\ sizes (sub_hdr u x y rows cs nd h L n) (win_rows u) (win_cols u) L n.
Proof.
  intros K (NO & KO & PO) FX FY FC IR IC IL IN. destruct (sub_hdr_keyed u x y rows cs nd h L n K) as [N KH]. split.
  - split; [exact N|]. split; [exact NO|]. split; [exact KH|]. split; [exact KO|]. split; [|exact PO].
    intros k v I. assert (J : In k header_keys) by (apply KH; change k with (fst (k, v)); apply in_map; exact I).
    apply (GridfsProofs2.lookup_In _ k v N) in I. rewrite sub_hdr_lookup in I by exact J.
    assert (FK : forall k1 k2 (z : f64), beqb k1 k2 = true -> fits_meta k1 z -> fits_meta k2 z) by (intros k1 k2 z B Q; apply beqb_true in B; subst k2; exact Q).
    destruct (beqb K_CELLSNUM k); [injection I as <-; apply int_fits; exact IN|].
    destruct (beqb K_LAYERS k); [injection I as <-; apply int_fits; exact IL|].
    destruct (beqb K_CELLSIZE k) eqn:B; [injection I as <-; exact (FK _ _ _ B FC)|clear B].
    destruct (beqb K_NCOLS k); [injection I as <-; apply int_fits; exact IC|].
    destruct (beqb K_NROWS k); [injection I as <-; apply int_fits; exact IR|].
    destruct (beqb K_NODATA k) eqn:B; [left; apply beqb_true in B; subst k; reflexivity|clear B].
    destruct (beqb K_YLL k) eqn:B; injection I as <-; [exact (FK _ _ _ B FY)|]. right. destruct FX as [FX|FX]; [discriminate FX|exact FX].
  - unfold sizes. rewrite !sub_hdr_lookup by (apply key_in; cbn [In]; auto 12). repeat split; assumption || apply IR || apply IC || apply IL || apply IN.
Qed.

(** ** Files of other names *)
Lemma filter_other name q (st : list gfile) : unused st name -> filter (matches name q) st = [].
Proof.
  intros U. induction st as [|f st IH]; [reflexivity|]. cbn [filter]. unfold matches at 1. destruct (beqb name (gf_name f)) eqn:B.
  - apply beqb_true in B. exfalso. exact (U f (or_introl eq_refl) (eq_sym B)).
  - cbn [andb]. apply IH. intros g I. apply U. right. exact I.
Qed.
Lemma filter_kept name q (st : list gfile) : unused st name -> filter (fun g => negb (matches name q g)) st = st.
Proof.
  intros U. induction st as [|f st IH]; [reflexivity|]. cbn [filter]. unfold matches at 1. destruct (beqb name (gf_name f)) eqn:B.
  - apply beqb_true in B. exfalso. exact (U f (or_introl eq_refl) (eq_sym B)).
  - cbn [andb negb]. f_equal. apply IH. intros g I. apply U. right. exact I.
Qed.
Lemma filter_sole q (fs : list gfile) f : NoDup (map gf_name fs) -> In f fs -> filter (matches (gf_name f) q) fs = filter (matches (gf_name f) q) [f].
Proof.
  induction fs as [|g fs IH]; intros N I; [destruct I|]. inversion N as [|? ? N1 N2]; subst. destruct I as [->|I].
  - cbn [filter]. rewrite (filter_other (gf_name f) q fs); [reflexivity|]. intros g I E. apply N1. rewrite <- E. apply in_map. exact I.
  - cbn [filter]. rewrite (IH N2 I). assert (M : matches (gf_name f) q g = false).
    { unfold matches. destruct (beqb (gf_name f) (gf_name g)) eqn:B; [|reflexivity]. apply beqb_true in B. exfalso. apply N1. rewrite <- B. apply in_map. exact I. }
    rewrite M. reflexivity.
Qed.
Lemma read_filter pick s st st' name h hs asked : (forall q, filter (matches name q) st = filter (matches name q) st') ->
  ReadGridFsFile pick s st name h hs asked = ReadGridFsFile pick s st' name h hs asked.
Proof. intros E. unfold ReadGridFsFile, GetFile. destruct (query asked) as [q| |]; cbn [obind]; [rewrite E|..]; reflexivity. Qed.

Lemma read_none pick s st name h hs asked : finds pick -> unused st name -> (forall k v, In (k, v) asked -> plain_option v) ->
  ReadGridFsFile pick s st name h hs asked = Ok (false, h, hs, None).
Proof.
  intros FP U PA. unfold ReadGridFsFile, GetFile. rewrite (query_ok asked PA). cbn [obind]. rewrite filter_other by exact U.
  specialize (FP []). destruct (pick []); [destruct FP|reflexivity].
Qed.

(** ** One file per subset *)
Section Files.
Variables (s : rdt) (toint : num -> option Z) (r : raster num) (dv x y cs : f64) (rows : Z) (name : bytes) (own : smap bytes) (include : bool) (default : f64).
Variables (L : Z -> Z) (val : Z -> Z -> Z -> f64) (conv : Z -> Z -> Z -> num) (saved : Z -> nat -> bool).
Hypotheses (SU : s <> RDT_Unknown) (OO : object_options own) (TG : target s own s) (FC : fits_meta (str "CELLSIZE") cs) (ND : of_type s (r_nodata r)).

(** What is known of a usable subset. *)
Definition ready (k : Z) (u : subset f64) : Prop :=
  in_int k /\ (exists g li, placed u g li) /\ holds u (L k) (val k) /\ describable u rows x y cs (L k) /\ saves (saved k) /\
  forall i l, 0 <= i < s_n u -> 0 <= l < L k -> cvt s (VD (val k i l)) = Ok (conv k i l).

Definition stored (k : Z) (u : subset f64) (f : gfile) : Prop :=
  exists h d, f = written s s (subset_name k name) h own d /\ storable h own /\ sizes h (win_rows u) (win_cols u) (L k) (count include u) /\
    Z.of_nat (length d) = count include u * L k /\ Forall (of_type s) d /\ in_int (win u * L k) /\ 0 < L k /\
    forall g li, placed u g li -> forall i l, 0 <= i < s_n u -> 0 <= l < L k -> nth_error d (Z.to_nat (spot include li i * L k + l)) = Some (conv k i l).

Lemma placed_unique (u : subset f64) g li g' li' : placed u g li -> placed u g' li' -> li = li'.
Proof. intros (_ & A & _) (_ & B & _). congruence. Qed.

Lemma put_one st h k u : keyed h -> ready k u -> s_usable u = true -> unused st (subset_name k name) ->
  exists f h', put_subset s toint saved r dv x y rows cs name own include false [] default (true, st, h) (k, u) = Ok (true, st ++ [f], h') /\
    keyed h' /\ stored k u f.
Proof.
  intros KH (IK & (g & li & P) & HO & (DX & DY & DI) & SV & CV) US UN.
  destruct (prepare_ok s toint r dv k u g li (L k) (val k) (conv k) include default P HO CV) as (d & PE & LD & VD1 & VD2).
  unfold put_subset. cbn [fst snd]. rewrite US, PE. cbn [negb obind]. pose proof HO as (_ & L0 & _). replace (L k =? 0) with false by lia.
  pose proof (placed_le u g li P) as PL. assert (C0 : 0 < count include u <= win u) by (destruct include; cbn [count]; lia).
  assert (0 < count include u * L k) by (apply Z.mul_pos_pos; lia). replace (count include u * L k <=? 0) with false by lia. rewrite Z.quot_mul by lia.
  fold (sub_hdr u x y rows cs (as_double (r_nodata r)) h (L k) (count include u)).
  set (h' := sub_hdr u x y rows cs (as_double (r_nodata r)) h (L k) (count include u)).
  destruct (placed_win u g li P) as [W1 W2].
  assert (DI' : in_int (win u * L k)) by exact DI.
  destruct (int_parts _ _ (count include u) (L k) W1 W2 C0 L0 DI) as (I1 & I2 & I3 & I4 & _).
  destruct (sub_storable u x y rows cs (as_double (r_nodata r)) h (L k) (count include u) own KH OO DX DY FC I1 I2 I3 I4) as [ST SZ]. fold h' in ST, SZ.
  assert (CD : converted s s d d) by (left; split; reflexivity).
  rewrite <- LD, (write_ok s s (saved k) st (subset_name k name) h' d d own SU ST TG CD SV), filter_kept by exact UN. cbn [obind fst snd].
  eexists. exists h'. split; [reflexivity|]. split; [apply sub_hdr_keyed; exact KH|].
  exists h', d. split; [reflexivity|]. split; [exact ST|]. split; [exact SZ|]. split; [exact LD|]. split.
  - apply Forall_forall. intros v I. destruct (VD2 v I) as [->|(i & l & Hi & Hl & ->)]; [exact ND|]. eapply cvt_type; [apply CV; assumption|exact SU].
  - split; [exact DI'|]. split; [exact L0|]. intros g' li' P'. rewrite <- (placed_unique u g li g' li' P P'). exact VD1.
Qed.

Lemma put_all : forall subs st h, keyed h -> NoDup (map fst subs) -> (forall k u, In (k, u) subs -> s_usable u = true -> ready k u) ->
  (forall k u, In (k, u) subs -> s_usable u = true -> unused st (subset_name k name)) ->
  exists fs h', ofold (put_subset s toint saved r dv x y rows cs name own include false [] default) subs (true, st, h) = Ok (true, st ++ fs, h') /\
    NoDup (map gf_name fs) /\
    (forall f, In f fs -> exists k u, In (k, u) subs /\ s_usable u = true /\ gf_name f = subset_name k name) /\
    (forall k u, In (k, u) subs -> s_usable u = true -> exists f, In f fs /\ stored k u f).
Proof.
  induction subs as [|[k u] subs IH]; intros st h KH N R U.
  - exists [], h. cbn [ofold]. rewrite app_nil_r. split; [reflexivity|]. split; [constructor|]. split; [intros f []|intros ? ? []].
  - inversion N as [|? ? N1 N2]; subst. cbn [fst] in N1. cbn [ofold]. destruct (s_usable u) eqn:US.
    + destruct (put_one st h k u KH (R k u (or_introl eq_refl) US) US (U k u (or_introl eq_refl) US)) as (f & h1 & E & K1 & S1).
      rewrite E. cbn [obind]. assert (IK : in_int k) by apply (R k u (or_introl eq_refl) US).
      assert (FN : gf_name f = subset_name k name) by (destruct S1 as (h0 & d & -> & _); reflexivity).
      assert (DIF : forall k' u', In (k', u') subs -> s_usable u' = true -> subset_name k' name <> subset_name k name).
      { intros k' u' I' US' Q. apply name_inj in Q; [|apply (R k' u' (or_intror I') US')|exact IK]. subst k'. apply N1. change k with (fst (k, u')). apply in_map. exact I'. }
      destruct (IH (st ++ [f]) h1 K1 N2) as (fs & h2 & E2 & A & B & C).
      * intros k' u' I'. apply R. right. exact I'.
      * intros k' u' I' US' g I. apply in_app_iff in I. destruct I as [I|[<-|[]]]; [exact (U k' u' (or_intror I') US' g I)|]. rewrite FN. intros Q. exact (DIF k' u' I' US' (eq_sym Q)).
      * exists (f :: fs), h2. rewrite E2, <- app_assoc. split; [reflexivity|]. split; [|split].
        -- cbn [map]. constructor; [|exact A]. intros I. apply in_map_iff in I. destruct I as (g & Eg & I). destruct (B g I) as (k' & u' & I' & US' & Eg').
           apply (DIF k' u' I' US'). congruence.
        -- intros g [<-|I]; [exists k, u; split; [left; reflexivity|auto]|]. destruct (B g I) as (k' & u' & I' & Q). exists k', u'. split; [right; exact I'|exact Q].
        -- intros k' u' [I'|I'] US'; [injection I' as <- <-; exists f; split; [left; reflexivity|exact S1]|]. destruct (C k' u' I' US') as (g & I & Q). exists g. split; [right; exact I|exact Q].
    + match goal with |- context [obind ?m _] => replace m with (Ok (true, st, h)) by (unfold put_subset; cbn [snd]; rewrite US; reflexivity) end. cbn [obind].
      destruct (IH st h KH N2) as (fs & h2 & E2 & A & B & C); [intros k' u' I'; apply R; right; exact I'|intros k' u' I'; apply U; right; exact I'|].
      exists fs, h2. rewrite E2. split; [reflexivity|]. split; [exact A|]. split.
      * intros g I. destruct (B g I) as (k' & u' & I' & Q). exists k', u'. split; [right; exact I'|exact Q].
      * intros k' u' [I'|I'] US'; [injection I' as <- <-; congruence|]. exact (C k' u' I' US').
Qed.

(** ** Back *)
Lemma read_back pick st fs k u f w asked g li : finds pick -> placed u g li -> stored k u f -> In f fs -> NoDup (map gf_name fs) ->
  unused st (subset_name k name) -> agrees asked (cur s own) -> same_cells u w -> room w (L k) ->
  exists w', ReadSubset pick (st ++ fs) w (subset_name k name) asked = Ok (true, w') /\ same_cells u w' /\ s_usable w' = true /\
    holds w' (L k) (fun i l => as_double (conv k i l)).
Proof.
  intros FP P (h & d & EF & ST & SZ & LD & FT & DI & L0 & VA) IF NF UN AG SC RM.
  pose proof (placed_same u w g li SC P) as PW. pose proof (placed_le u g li P) as PL. pose proof SC as (S1 & S2 & S3 & S4 & S5 & S6 & S7).
  assert (WW : win w = win u) by congruence. assert (CW : count include w = count include u) by (destruct include; cbn [count]; congruence).
  assert (C0 : 0 < count include u <= win u) by (destruct include; cbn [count]; lia).
  destruct (placed_win u g li P) as [W1 W2].
  assert (FN : gf_name f = subset_name k name) by (subst f; reflexivity).
  destruct (trip pick s s RDT_Double (fun _ => true) [] (subset_name k name) h own d d (map (fun v => VD (as_double v)) d) (win_rows u) (win_cols u) (L k) (count include u) asked
     (map (fun kv => (fst kv, of_int (snd kv))) InitialHeader) InitialStrHeader) as (st' & _ & E2 & h' & hs' & RD & HB & _);
    try assumption; try lia.
  - left; split; reflexivity.
  - exists 0%nat. split; [lia|reflexivity].
  - apply (int_parts _ _ (count include u) (L k) W1 W2 C0 L0 DI).
  - clear. induction d as [|v d IH]; cbn [map]; constructor; [reflexivity|exact IH].
  - intros q. vm_compute. tauto.
  - intros ? [].
  - cbn [filter app] in E2. subst st'. rewrite <- EF in RD.
    rewrite (read_filter pick RDT_Double [f] (st ++ fs)) in RD.
    2:{ intros q. rewrite filter_app, (filter_other _ q st UN). cbn [app]. rewrite <- FN. symmetry. apply filter_sole; assumption. }
    destruct SZ as (_ & _ & Z1 & Z2 & _ & _ & Z3 & Z4).
    destruct (HB _ _ Z1) as (yl & El & Sl & _). destruct (HB _ _ Z2) as (yc & Ec & Sc & _).
    destruct (read_holds pick (st ++ fs) w (subset_name k name) asked g li (L k) include h' hs' (map (fun v => VD (as_double v)) d) (fun i l => as_double (conv k i l)) yc yl PW RM L0) as (w' & RW & SW & UW & HW).
    + rewrite WW. apply (int_parts _ _ (count include u) (L k) W1 W2 C0 L0 DI).
    + exact RD.
    + exact Ec.
    + rewrite CW, <- (same_f_int _ _ Sc). apply f_int_of_int. exact Z4.
    + exact El.
    + rewrite <- (same_f_int _ _ Sl). apply f_int_of_int. exact Z3.
    + intros i l Hi Hl. exists (VD (as_double (conv k i l))). split; [|reflexivity]. rewrite nth_error_map, (VA g li P) by (congruence || lia). reflexivity.
    + exists w'. split; [exact RW|]. split; [|split; [exact UW|exact HW]]. destruct SW as (T1 & T2 & T3 & T4 & T5 & T6 & T7). repeat split; congruence.
Qed.
End Files.

Lemma asks_agrees s own opts include asked : NoDup (map fst own) -> NoDup (map fst opts) -> asks own opts include asked ->
  agrees asked (cur s (output_options s own opts include)).
Proof.
  intros N1 N2 [NA A]. split; [exact NA|]. intros k v I. rewrite cur_lookup by (apply options_NoDup; exact N1). rewrite (options_lookup s own opts include k N2).
  destruct (A k v I) as [[-> ->]|(B1 & B2 & E)].
  - reflexivity.
  - destruct (beqb K_INCNODATA k) eqn:Q1; [apply beqb_true in Q1; subst k; exfalso; apply B1; reflexivity|].
    destruct (beqb K_OUTTYPE k) eqn:Q2; [apply beqb_true in Q2; subst k; exfalso; apply B2; reflexivity|]. rewrite E. reflexivity.
Qed.
