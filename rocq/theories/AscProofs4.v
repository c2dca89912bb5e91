(** Lemmas about writing raster objects as ASC files and reading them again. *)
From Coq Require Import ZArith Reals Ascii String List Bool Permutation Sorted Lia ZifyBool ZifyNat Lra.
From Flocq Require Import Core BinarySingleNaN.
From Verif Require Import Base ListLib StrModel StrSpec StrProofs FsModel FsSpec FsProofs MapModel MapProofs RasterModel RasterSpec RasterProofs
  FloatModel FloatProofs CoordFloatModel TypeModel NumModel NumSpec NumProofs CopyModel AscModel AscSpec AscProofs AscProofs2 AscProofs3.
Import ListNotations.
Open Scope Z_scope.
Open Scope outcome_scope.

Lemma printed cols rows x y cs nd : in_int cols -> in_int rows -> finite4 x y cs nd ->
  printed_header (lines_text (header_words cols rows x y cs nd)) cols rows x y cs nd.
Proof.
  intros C R (F1 & F2 & F3 & F4). destruct (header_lines_written cols rows x y cs nd C R F1 F2 F3 F4) as (x' & y' & cs' & nd' & A1 & A2 & A3 & A4 & H).
  exists x', y', cs', nd'. repeat (split; [assumption|]). eexists. split; [|split; [exact H|]].
  - pose proof (header_words_plain cols rows x y cs nd F1 F2 F3 F4) as P. apply Forall_forall. intros l I. apply in_map_iff in I. destruct I as (ws & <- & I).
    rewrite Forall_forall in P. destruct (P ws I) as (_ & Q & _). pose proof (join_no_newline ws [] Q) as Z. rewrite app_nil_r in Z. apply Z. auto.
  - rewrite lines_text_lines. f_equal. apply map_ext. intros. now rewrite app_nil_r.
Qed.

Section Obj.
Context {T : Type}.
Variable show : T -> bytes.
Variable feq : T -> T -> bool.

Lemma scan_holds (r : raster T) missing lyr text : holds_data r -> layer_ok r lyr ->
  exists c, (forall i j, inside r i j -> exists v, GetValue r i j lyr = Ok v /\
               ((stored r i j /\ c i j = show v) \/ (~ stored r i j /\ v = r_nodata r /\ c i j = missing))) /\
    scan_grid show r (isnull (r_pos r) && isnull (r_posidx r)) (if isnull (r_pos r) && isnull (r_posidx r) then None else r_pos r)
      missing (r_rows r) (r_cols r) lyr text = Ok (text ++ grid_text c (r_rows r) (r_cols r)).
Proof.
  intros [F|(ix & C)] L.
  - destruct (scan_direct show r missing lyr text F L) as (c & A & E). exists c. split.
    + intros i j I. destruct (A i j I) as (v & V & W). exists v. split; [exact V|]. left. split; [|exact W]. split; [exact I|]. now left.
    + pose proof F as (_ & _ & _ & _ & _ & P1 & P2). rewrite P1, P2. cbn [isnull andb]. exact E.
  - destruct (scan_compact show r ix missing lyr text C L) as (c & A & E). exists c. split.
    + intros i j I. destruct (A i j I) as (v & V & W). exists v. split; [exact V|].
      assert (ST : stored r i j <-> In (i * r_cols r + j) ix).
      { split.
        - intros (_ & [F|(ix' & C' & I')]).
          + destruct F as (_ & _ & _ & _ & _ & P1 & _). destruct C as (_ & _ & _ & _ & _ & _ & _ & _ & P2 & _). congruence.
          + destruct C' as (_ & _ & _ & _ & _ & _ & _ & P1 & _). destruct C as (_ & _ & _ & _ & _ & _ & _ & P2 & _). congruence.
        - intros I'. split; [exact I|]. right. eauto. }
      rewrite ST. exact W.
    + pose proof C as (_ & _ & _ & _ & _ & _ & _ & P1 & P2 & _). rewrite P1, P2. cbn [isnull andb]. rewrite P2 in E. exact E.
Qed.

Lemma grid_ints (r : raster T) : holds_data r -> 0 < r_rows r /\ 0 < r_cols r /\ 1 <= r_nlyrs r.
Proof. intros [F|(ix & C)]; [destruct F as (A & B & D & _)|destruct C as (A & B & D & _)]; auto. Qed.

Lemma kept_positions (r : raster T) ord1 ord2 (asserts : bool) : holds_data r ->
  (let direct := isnull (r_pos r) && isnull (r_posidx r) in
   if direct then Ok (r, None)
   else let* a := GetRasterPositionData feq ord1 r in
        let* b := GetRasterPositionIndex feq ord2 (fst a) in
        let pos := snd (snd a) in
        if asserts && (isnull pos || isnull (snd (snd b))) then Throw else Ok (fst b, pos)) =
  Ok (r, if isnull (r_pos r) && isnull (r_posidx r) then None else r_pos r).
Proof.
  intros [F|(ix & C)].
  - destruct F as (_ & _ & _ & _ & _ & P1 & P2). rewrite P1, P2. reflexivity.
  - pose proof C as (_ & _ & _ & _ & _ & _ & _ & P1 & P2 & _). rewrite P1, P2. cbn [isnull andb]. unfold GetRasterPositionData.
    rewrite P2. cbn [isnull negb obind fst snd]. unfold GetRasterPositionIndex. rewrite P1. cbn [isnull negb obind fst snd].
    rewrite andb_comm. reflexivity.
Qed.

Section Out.
Variable o : os.
Variable asserts : bool.
Variables ord1 ord2 : list nat.
Variable opened : bytes -> bool.
Variables (h : smap f64) (r : raster T) (filename : bytes).
Variables x y cs nd : f64.
Hypothesis HD : holds_data r.
Hypothesis IR : in_int (r_rows r).
Hypothesis IC : in_int (r_cols r).
Hypothesis HS : header_shows h (r_cols r) (r_rows r) x y cs nd.
Let head := lines_text (header_words (r_cols r) (r_rows r) x y cs nd).
Let abs := GetAbsolutePath o filename.

Lemma output_one : r_is2d r = false -> opened abs = true ->
  exists c, (forall i j, inside r i j -> exists v, GetValue r i j 1 = Ok v /\ c i j = show v) /\
    OutputAscFile show feq o asserts ord1 ord2 opened h r filename = Ok (r, true, [(abs, head ++ grid_text c (r_rows r) (r_cols r))]).
Proof.
  intros D O. destruct (scan_holds r (show (r_nodata r)) 1 head HD) as (c & A & E). { destruct (grid_ints r HD). split; lia. }
  exists c. split.
  { intros i j I. destruct (A i j I) as (v & V & [(_ & W)|(_ & -> & W)]); eauto. }
  unfold OutputAscFile. pose proof (kept_positions r ord1 ord2 asserts HD) as KP. cbv zeta in KP |- *. rewrite KP. clear KP. cbn [obind fst snd].
  pose proof HS as (H1 & H2 & _). unfold at_get at 1 2. unfold K_NROWS at 1. unfold K_NCOLS at 1. rewrite H1, H2. cbn [obind].
  rewrite !f_int_of_int by assumption. cbn [obind]. rewrite D. fold abs. rewrite O, (write_headers h _ _ x y cs nd HS IC IR). cbn [obind].
  fold head. rewrite E. reflexivity.
Qed.

Definition layer_name (k : Z) : bytes := AppendCoreFileName o abs (itoa k) "_".

Lemma output_layers : r_is2d r = true -> GetPathFromFullName o abs <> [] -> (forall k, 0 <= k < r_nlyrs r -> opened (layer_name k) = true) ->
  exists c, (forall k i j, 0 <= k < r_nlyrs r -> inside r i j -> exists v, GetValue r i j (k + 1) = Ok v /\
               ((stored r i j /\ c k i j = show v) \/ (~ stored r i j /\ v = r_nodata r /\ c k i j = str "-9999"))) /\
    OutputAscFile show feq o asserts ord1 ord2 opened h r filename =
    Ok (r, true, map (fun k => (layer_name k, head ++ grid_text (c k) (r_rows r) (r_cols r))) (zseq (r_nlyrs r))).
Proof.
  intros D P O.
  assert (M : g6 (of_int (-9999)) = str "-9999") by (rewrite g6_int by lia; reflexivity).
  assert (EX : forall n : nat, (n <= Z.to_nat (r_nlyrs r))%nat -> exists c, forall k, 0 <= k < Z.of_nat n ->
     (forall i j, inside r i j -> exists v, GetValue r i j (k + 1) = Ok v /\
        ((stored r i j /\ c k i j = show v) \/ (~ stored r i j /\ v = r_nodata r /\ c k i j = str "-9999"))) /\
     scan_grid show r (isnull (r_pos r) && isnull (r_posidx r)) (if isnull (r_pos r) && isnull (r_posidx r) then None else r_pos r)
      (g6 (of_int (-9999))) (r_rows r) (r_cols r) (k + 1) head = Ok (head ++ grid_text (c k) (r_rows r) (r_cols r))).
  { induction n as [|n IH]; intros L; [exists (fun _ _ _ => []); lia|]. destruct IH as (c & C); [lia|].
    destruct (scan_holds r (g6 (of_int (-9999))) (Z.of_nat n + 1) head HD) as (c1 & A & E); [split; lia|].
    exists (fun k => if k =? Z.of_nat n then c1 else c k). intros k K. destruct (k =? Z.of_nat n) eqn:Q.
    - replace k with (Z.of_nat n) by lia. split; [|exact E]. rewrite <- M. exact A.
    - apply C. lia. }
  destruct (EX (Z.to_nat (r_nlyrs r)) (le_n _)) as (c & C). exists c. destruct (grid_ints r HD) as (_ & _ & NL).
  split. { intros k i j K I. destruct (C k) as [A _]; [lia|]. apply A, I. }
  unfold OutputAscFile. pose proof (kept_positions r ord1 ord2 asserts HD) as KP. cbv zeta in KP |- *. rewrite KP. clear KP. cbn [obind fst snd].
  pose proof HS as (H1 & H2 & _). unfold at_get at 1 2. unfold K_NROWS at 1. unfold K_NCOLS at 1. rewrite H1, H2. cbn [obind].
  rewrite !f_int_of_int by assumption. cbn [obind]. rewrite D. fold abs. destruct (GetPathFromFullName o abs) as [|p0 p1] eqn:EP; [congruence|]. clear EP P.
  match goal with |- obind (ofold ?f _ _) _ = _ => set (step := f) end.
  assert (LP : forall n, 0 <= n <= r_nlyrs r -> ofold step (zseq n) (true, []) =
     Ok (true, map (fun k => (layer_name k, head ++ grid_text (c k) (r_rows r) (r_cols r))) (zseq n))).
  { intros n [N0 N1]. revert N1. pattern n. apply natlike_ind; [|clear n N0; intros n N0 IH N1|exact N0].
    - intros _. rewrite zseq_0 by lia. reflexivity.
    - replace (Z.succ n) with (n + 1) by lia. rewrite zseq_S, ofold_app, IH by lia. cbn [obind ofold]. unfold step. cbn [fst snd negb].
      fold (layer_name n). rewrite O by lia. rewrite (write_headers h _ _ x y cs nd HS IC IR). cbn [obind]. fold head.
      destruct (C n) as [_ E]; [lia|]. rewrite E. cbn [obind]. rewrite map_app. reflexivity. }
  rewrite LP by lia. reflexivity.
Qed.
End Out.
End Obj.

(** ** Cell types *)
Lemma int_readable z : in_int z -> readable show_int cast_int32 z.
Proof.
  intros [A B]. unfold INT_MIN, INT_MAX in *. split; [apply itoa_no_space|]. exists (z <? 0), (dec (Z.abs z)), 0. split; [apply itoa_number|]. intros x D.
  pose proof (IsDouble_number _ _ _ _ (itoa_number z)) as (x' & E & D'). rewrite (IsDouble_itoa z) in E by lia. injection E as <-.
  rewrite (double_of_unique _ _ _ _ D D'). apply f_int_of_int. unfold in_int, INT_MIN, INT_MAX. lia.
Qed.

Lemma double_readable (x : f64) y : is_finite x = true -> B2R x = to_double y -> has_six_digits y -> (y = 0 \/ bpow radix2 (-1022) <= Rabs y)%R ->
  readable show_double cast_double x.
Proof.
  intros F E S B. split; [apply g6_no_space|]. destruct (g6_number x F) as (ds & k & N & V). exists (Bsign x), ds, k. split; [exact N|].
  intros x' D. unfold cast_double. f_equal. destruct (strtod_g6 x F) as [D' _]. rewrite V in D. apply (double_of_unique _ _ _ _ D).
  assert (Q : six_digits (B2R x) = y).
  { rewrite E. destruct B as [->|B]; [rewrite to_double_0; apply six_digits_0|]. now apply six_of_double. }
  rewrite Q. clear D'. pose proof (double_of_self x F) as [(A1 & A2 & A3 & A4)|(A1 & A2)]; [|rewrite A1 in F; discriminate].
  left. rewrite <- E. rewrite (proj1 (to_double_in x F)) in A4. auto.
Qed.

Lemma cast_between lo hi (x : f64) : is_finite x = true -> (IZR lo <= B2R x <= IZR hi)%R -> exists z, cast_int lo hi x = Ok z /\ lo <= z <= hi.
Proof.
  intros F [A B]. unfold cast_int. rewrite F. exists (Btrunc x).
  assert (E : Btrunc x = Ztrunc (B2R x)).
  { apply eq_IZR. rewrite (Btrunc_correct 53 1024 prec_lt_53). unfold round, F2R, scaled_mantissa, cexp, FIX_exp. cbn [Fnum Fexp].
    change (bpow radix2 (- 0)) with 1%R. change (bpow radix2 0) with 1%R. now rewrite !Rmult_1_r. }
  assert (lo <= Btrunc x <= hi). { rewrite E. split; [rewrite <- (Ztrunc_IZR lo); now apply Ztrunc_le|rewrite <- (Ztrunc_IZR hi); now apply Ztrunc_le]. }
  replace ((lo <=? Btrunc x) && (Btrunc x <=? hi)) with true by lia. auto.
Qed.

Lemma int_nodata (nd nd' : f64) : is_finite nd = true -> (Rabs (B2R nd) <= IZR 2147480000)%R -> reread nd nd' -> exists w, cast_int32 nd' = Ok w.
Proof.
  intros F B R.
  assert (S6 : six_digits (IZR 2147480000) = IZR 2147480000).
  { apply six_digits_fix. exists 214748, 4. split; [|lia]. rewrite <- (IZR_Zpower radix10) by lia. rewrite <- mult_IZR. apply (f_equal IZR). reflexivity. }
  assert (SD : to_double (IZR 2147480000) = IZR 2147480000) by (apply to_double_int; lia).
  apply Rabs_le_inv in B. destruct B as [B1 B2].
  assert (K : (- IZR 2147480000 <= to_double (six_digits (B2R nd)) <= IZR 2147480000)%R).
  { split.
    - rewrite <- SD, <- to_double_opp. apply to_double_le. rewrite <- S6, <- six_digits_opp. apply six_digits_le, B1.
    - rewrite <- SD. apply to_double_le. rewrite <- S6. apply six_digits_le, B2. }
  destruct R as [(F' & E & _)|(_ & C)].
  - destruct (cast_between INT_MIN INT_MAX nd' F') as (z & Z & _); [|exists z; exact Z]. rewrite E. unfold INT_MIN, INT_MAX. rewrite <- opp_IZR in K.
    split; [eapply Rle_trans; [|apply K]; apply IZR_le; lia|eapply Rle_trans; [apply K|]; apply IZR_le; lia].
  - exfalso. revert C. apply Rlt_not_le. eapply Rle_lt_trans; [apply Rabs_le; exact K|]. rewrite <- (IZR_Zpower radix2) by lia. apply IZR_lt. vm_compute. reflexivity.
Qed.

(** ** Round trips *)
Section Trip.
Context {T : Type}.
Variable show : T -> bytes.
Variable cast : f64 -> outcome T.

Lemma readable_word v : readable show cast v -> exists x, number_word (show v) x /\ cast x = Ok v.
Proof.
  intros (S & neg & ds & k & N & C). destruct (IsDouble_number _ _ _ _ N) as (x & _ & D). exists x. split; [|apply C, D].
  split; [exact S|]. eauto 6.
Qed.

Lemma readable_cell v : readable show cast v -> number_word (show v) (fst (strtod (show v))) /\ cast (fst (strtod (show v))) = Ok v.
Proof.
  intros (S & neg & ds & k & N & C). destruct (strtod_correct _ _ _ _ N) as [D _]. split; [|apply C, D]. split; [exact S|]. eauto 6.
Qed.

Theorem single_trip h0 cols rows x y cs nd vals h fuel text :
  header_shows h0 cols rows x y cs nd -> grid_size rows cols -> Z.of_nat (length vals) = rows * cols ->
  ordinary x -> ordinary y -> cell_size cs -> is_finite nd = true -> (forall nd', reread nd nd' -> exists w, cast nd' = Ok w) ->
  Forall (readable show cast) vals ->
  WriteSingleAsc show true true h0 (Some vals) = Ok (Some text) -> (length text < fuel)%nat ->
  exists h' x' y' cs' nd', reread x x' /\ reread y y' /\ reread cs cs' /\ reread nd nd' /\
    ReadAscFile cast fuel (Some {| content := text; read_error := false |}) h None = Some (Ok (true, h', Some vals)) /\
    header_read h h' cols rows x' y' cs' nd'.
Proof.
  intros HS G L OX OY OC FN CN FR W FU. destruct (write_single show h0 cols rows x y cs nd vals HS G L) as (v & IV & EV & EW).
  rewrite EW in W. injection W as W. rewrite Forall_forall in FR.
  destruct (read_grid cast cols rows x y cs nd (fun i j => show (v i j)) (fun i j => fst (strtod (show (v i j)))) v 1 fuel h text) as
    (h' & x' & y' & cs' & nd' & A1 & A2 & A3 & A4 & R & H); auto.
  { intros i j I J. apply readable_cell, FR, IV; assumption. }
  rewrite <- EV in R. eauto 12.
Qed.

Lemma grid_nth {A} (v : Z -> Z -> A) rows cols i j : 0 <= i < rows -> 0 <= j < cols ->
  nth_error (flat_map (fun i => map (v i) (zseq cols)) (zseq rows)) (Z.to_nat (i * cols + j)) = Some (v i j).
Proof.
  intros I J.
  assert (E : flat_map (fun i => map (v i) (zseq cols)) (zseq rows) = map (fun k => v (k / cols) (k mod cols)) (zseq (rows * cols))).
  { rewrite <- flat_grid by lia. rewrite !flat_map_concat_map. f_equal. apply map_ext. intros a. apply map_ext_in. intros b B. apply zseq_In in B.
    rewrite Z.div_add_l, Z.div_small by lia. rewrite (Z.add_comm (a * cols)), Z.mod_add, Z.mod_small by lia. f_equal. lia. }
  rewrite E, nth_error_map, zseq_nth by nia. cbn [option_map]. rewrite Z.div_add_l, Z.div_small by lia.
  rewrite (Z.add_comm (i * cols)), Z.mod_add, Z.mod_small by lia. do 2 f_equal. lia.
Qed.

Lemma grid_length {A} (v : Z -> Z -> A) rows cols : 0 <= rows -> 0 <= cols -> Z.of_nat (length (flat_map (fun i => map (v i) (zseq cols)) (zseq rows))) = rows * cols.
Proof.
  intros R C. pattern rows. apply natlike_ind; [reflexivity| |exact R]. intros n N IH. replace (Z.succ n) with (n + 1) by lia.
  rewrite zseq_S, flat_map_app, app_length by lia. cbn [flat_map]. rewrite app_nil_r, map_length, zseq_length. lia.
Qed.

(** The text of a grid of cells, each the text of a value. *)
Theorem grid_trip cols rows x y cs nd (cell : Z -> Z -> bytes) h fuel text :
  grid_size rows cols -> ordinary x -> ordinary y -> cell_size cs -> is_finite nd = true -> (forall nd', reread nd nd' -> exists w, cast nd' = Ok w) ->
  (forall i j, 0 <= i < rows -> 0 <= j < cols -> exists v, readable show cast v /\ cell i j = show v) ->
  text = lines_text (header_words cols rows x y cs nd) ++ grid_text cell rows cols -> (length text < fuel)%nat ->
  exists h' x' y' cs' nd' vs, reread x x' /\ reread y y' /\ reread cs cs' /\ reread nd nd' /\
    ReadAscFile cast fuel (Some {| content := text; read_error := false |}) h None = Some (Ok (true, h', Some vs)) /\
    header_read h h' cols rows x' y' cs' nd' /\ Z.of_nat (length vs) = rows * cols /\
    forall i j v, 0 <= i < rows -> 0 <= j < cols -> readable show cast v -> cell i j = show v -> nth_error vs (Z.to_nat (i * cols + j)) = Some v.
Proof.
  intros G OX OY OC FN CN FC TX FU.
  assert (D : exists d : T, True). { destruct (FC 0 0) as (v & _); [destruct G; lia|destruct G as (_ & ? & _); lia|]. now exists v. }
  destruct D as (d & _). set (val := fun i j => fst (strtod (cell i j))). set (v := fun i j => match cast (val i j) with Ok v => v | _ => d end).
  destruct (read_grid cast cols rows x y cs nd cell val v 0 fuel h text) as
    (h' & x' & y' & cs' & nd' & A1 & A2 & A3 & A4 & R & H); auto.
  { intros i j I J. destruct (FC i j I J) as (w & RW & E). unfold v, val. rewrite E. destruct (readable_cell w RW) as [N C]. rewrite C. auto. }
  { cbn [repeat]. rewrite app_nil_r. exact TX. }
  exists h', x', y', cs', nd', (flat_map (fun i => map (v i) (zseq cols)) (zseq rows)). repeat (split; [assumption|]).
  split; [apply grid_length; destruct G as (? & ? & _); lia|].
  intros i j w I J RW E. rewrite (grid_nth v rows cols i j I J). f_equal. unfold v, val. rewrite E. destruct (readable_cell w RW) as [_ C]. now rewrite C.
Qed.
End Trip.
