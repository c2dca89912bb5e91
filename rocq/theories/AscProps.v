(** C41, C42, C44, C45, C76-C81: rasters as ASC files. *)
From Coq Require Import ZArith Reals QArith Ascii String List Bool Permutation Sorted Lia Lra ZifyBool ZifyNat.
From Flocq Require Import Core BinarySingleNaN.
From Verif Require Import Base ListLib StrModel StrSpec StrProofs FsModel FsSpec MapModel RasterModel RasterSpec RasterProofs RasterProofs2 RasterProofs3
  FloatModel FloatProofs CoordFloatModel TypeModel NumModel NumSpec NumProofs CopyModel CopyProps AscModel AscSpec AscProofs AscProofs2 AscProofs3 AscProofs4 AscProofs5.
Import List ListNotations.
Open Scope Z_scope.
Open Scope outcome_scope.

(** ** C41: each cell in its place *)

(** One layer: header, then the cells row by row, each the value GetValue
    returns. The object is left as it was. *)
Theorem C41_one_layer : forall T (show : T -> bytes) feq o asserts ord1 ord2 opened h (r : raster T) filename x y cs nd,
  holds_data r -> r_is2d r = false -> in_int (r_rows r) -> in_int (r_cols r) ->
  header_shows h (r_cols r) (r_rows r) x y cs nd -> finite4 x y cs nd -> opened (GetAbsolutePath o filename) = true ->
  exists head c, OutputAscFile show feq o asserts ord1 ord2 opened h r filename =
      Ok (r, true, [(GetAbsolutePath o filename, head ++ grid_text c (r_rows r) (r_cols r))]) /\
    printed_header head (r_cols r) (r_rows r) x y cs nd /\
    (forall i j, inside r i j -> exists v, GetValue r i j 1 = Ok v /\ c i j = show v).
Proof.
  intros T show feq o asserts ord1 ord2 opened h r filename x y cs nd HD D IR IC HS F O.
  destruct (output_one show feq o asserts ord1 ord2 opened h r filename x y cs nd HD IR IC HS D O) as (c & A & E).
  eexists _, c. split; [exact E|]. split; [apply printed; assumption|exact A].
Qed.
Print Assumptions C41_one_layer.

(** Several layers: one file per layer, numbered from 0; cells without storage
    carry -9999. *)
Theorem C41_layers : forall T (show : T -> bytes) feq o asserts ord1 ord2 opened h (r : raster T) filename x y cs nd,
  holds_data r -> r_is2d r = true -> in_int (r_rows r) -> in_int (r_cols r) ->
  header_shows h (r_cols r) (r_rows r) x y cs nd -> finite4 x y cs nd -> GetPathFromFullName o (GetAbsolutePath o filename) <> [] ->
  (forall k, 0 <= k < r_nlyrs r -> opened (AppendCoreFileName o (GetAbsolutePath o filename) (itoa k) "_") = true) ->
  exists head files, OutputAscFile show feq o asserts ord1 ord2 opened h r filename = Ok (r, true, files) /\
    printed_header head (r_cols r) (r_rows r) x y cs nd /\ Z.of_nat (length files) = r_nlyrs r /\
    forall k, 0 <= k < r_nlyrs r -> exists c,
      nth_error files (Z.to_nat k) = Some (AppendCoreFileName o (GetAbsolutePath o filename) (itoa k) "_", head ++ grid_text c (r_rows r) (r_cols r)) /\
      forall i j, inside r i j -> exists v, GetValue r i j (k + 1) = Ok v /\ (stored r i j -> c i j = show v) /\ (~ stored r i j -> c i j = str "-9999").
Proof.
  intros T show feq o asserts ord1 ord2 opened h r filename x y cs nd HD D IR IC HS F P O.
  destruct (output_layers show feq o asserts ord1 ord2 opened h r filename x y cs nd HD IR IC HS D P O) as (c & A & E).
  eexists _, _. split; [exact E|]. split; [apply printed; assumption|]. destruct (grid_ints r HD) as (_ & _ & NL).
  split; [rewrite map_length, zseq_length; lia|]. intros k K. exists (c k). split; [rewrite nth_error_map, zseq_nth by lia; reflexivity|].
  intros i j I. destruct (A k i j K I) as (v & V & C). exists v. split; [exact V|]. tauto.
Qed.
Print Assumptions C41_layers.

(** What has been written is read again: every value GetValue returns comes back
    in its place, with the size and the header as printed. *)
Theorem C41_read_back : forall T (show : T -> bytes) cast feq o asserts ord1 ord2 opened h (r : raster T) filename x y cs nd,
  holds_data r -> r_is2d r = false -> grid_size (r_rows r) (r_cols r) ->
  header_shows h (r_cols r) (r_rows r) x y cs nd -> ordinary x -> ordinary y -> cell_size cs -> is_finite nd = true ->
  (forall nd', reread nd nd' -> exists w, cast nd' = Ok w) ->
  (forall i j v, inside r i j -> GetValue r i j 1 = Ok v -> readable show cast v) ->
  opened (GetAbsolutePath o filename) = true ->
  exists text, OutputAscFile show feq o asserts ord1 ord2 opened h r filename = Ok (r, true, [(GetAbsolutePath o filename, text)]) /\
    forall fuel h0, (length text < fuel)%nat -> exists h' x' y' cs' nd' vs, reread x x' /\ reread y y' /\ reread cs cs' /\ reread nd nd' /\
      ReadAscFile cast fuel (Some {| content := text; read_error := false |}) h0 None = Some (Ok (true, h', Some vs)) /\
      header_read h0 h' (r_cols r) (r_rows r) x' y' cs' nd' /\ layer_values r 1 vs.
Proof.
  intros T show cast feq o asserts ord1 ord2 opened h r filename x y cs nd HD D G HS OX OY OC FN CN RD O. pose proof G as (GR & GC & GN).
  assert (GI : in_int (r_cols r) /\ in_int (r_rows r)) by (unfold in_int, INT_MIN, INT_MAX in *; nia).
  destruct (output_one show feq o asserts ord1 ord2 opened h r filename x y cs nd HD (proj2 GI) (proj1 GI) HS D O) as (c & A & E).
  eexists. split; [exact E|]. intros fuel h0 FU.
  assert (FC : forall i j, 0 <= i < r_rows r -> 0 <= j < r_cols r -> exists v, readable show cast v /\ c i j = show v).
  { intros i j I J. destruct (A i j (conj I J)) as (v & V & W). exists v. split; [|exact W]. apply (RD i j); [split; assumption|exact V]. }
  destruct (grid_trip show cast (r_cols r) (r_rows r) x y cs nd c h0 fuel _ G OX OY OC FN CN FC eq_refl FU)
    as (h' & x' & y' & cs' & nd' & vs & R1 & R2 & R3 & R4 & RE & HR & LN & VS).
  exists h', x', y', cs', nd', vs. repeat (split; [assumption|]). intros i j I. destruct (A i j I) as (v & V & W). exists v. split; [|exact V].
  destruct I as [I J]. apply VS; auto. apply (RD i j); [split; assumption|exact V].
Qed.
Print Assumptions C41_read_back.

(** Rasters of 32-bit integers and of doubles with at most six digits are of
    that kind. *)
Theorem C41_int : forall z, in_int z -> readable show_int cast_int32 z.
Proof. exact int_readable. Qed.
Print Assumptions C41_int.

Theorem C41_double : forall (x : f64) y, is_finite x = true -> B2R x = to_double y -> has_six_digits y -> (y = 0 \/ bpow radix2 (-1022) <= Rabs y)%R ->
  readable show_double cast_double x.
Proof. exact double_readable. Qed.
Print Assumptions C41_double.

Definition ex_os : os := {| realpath := fun f => Some (match f with "/"%char :: _ => f | _ => str "/d/" ++ f end); isdir := fun _ => false |}.
Definition ex_header : smap f64 :=
  [(str "NCOLS", of_int 2); (str "NROWS", of_int 2); (str "XLLCENTER", of_int 0); (str "YLLCENTER", of_int 3); (str "CELLSIZE", of_int 10); (str "NODATA_VALUE", of_int (-9))].
Definition ex_text : bytes :=
  str "NCOLS 2" ++ newline ++ str "NROWS 2" ++ newline ++ str "XLLCENTER 0" ++ newline ++ str "YLLCENTER 3" ++ newline ++
  str "CELLSIZE 10" ++ newline ++ str "NODATA_VALUE -9" ++ newline.

Example C41_ex : holds_data one_dropped /\ holds_data one_layer /\ header_shows ex_header 2 2 (of_int 0) (of_int 3) (of_int 10) (of_int (-9)) /\
  (exists r, OutputAscFile show_int Z.eqb ex_os true [] [] (fun _ => true) ex_header one_dropped (str "m.asc") =
     Ok (r, true, [(str "/d/m.asc", ex_text ++ str "5 -9 " ++ newline ++ str "7 8 " ++ newline)])) /\
  (exists r, OutputAscFile show_int Z.eqb ex_os true [] [] (fun _ => true) ex_header two_layers (str "m.asc") =
     Ok (r, true, [(str "/d/m_0.asc", ex_text ++ str "5 6 " ++ newline ++ str "-9 8 " ++ newline);
                   (str "/d/m_1.asc", ex_text ++ str "50 60 " ++ newline ++ str "70 80 " ++ newline)])).
Proof.
  split; [right; eexists; apply compact_one|]. split; [left; apply full_one|]. split; [repeat split; reflexivity|].
  split; eexists; vm_compute; reflexivity.
Qed.

(** ** C42 (false): multi-layer files mark missing cells with the NoData value *)

(** Each file of a multi-layer raster of 32-bit integers read again: the stored
    cells as they are, every other cell -9999, whatever NoData is. *)
Theorem C42_refuted : forall feq o asserts ord1 ord2 opened h (r : raster Z) filename x y cs,
  holds_data r -> r_is2d r = true -> grid_size (r_rows r) (r_cols r) -> Z.abs (r_nodata r) <= 2147480000 ->
  header_shows h (r_cols r) (r_rows r) x y cs (of_int (r_nodata r)) -> ordinary x -> ordinary y -> cell_size cs ->
  (forall i j lyr v, inside r i j -> layer_ok r lyr -> GetValue r i j lyr = Ok v -> in_int v) ->
  GetPathFromFullName o (GetAbsolutePath o filename) <> [] ->
  (forall k, 0 <= k < r_nlyrs r -> opened (AppendCoreFileName o (GetAbsolutePath o filename) (itoa k) "_") = true) ->
  exists files, OutputAscFile show_int feq o asserts ord1 ord2 opened h r filename = Ok (r, true, files) /\
    forall k name text, nth_error files (Z.to_nat k) = Some (name, text) -> 0 <= k -> forall fuel h0, (length text < fuel)%nat ->
    exists h' vs, ReadAscFile cast_int32 fuel (Some {| content := text; read_error := false |}) h0 None = Some (Ok (true, h', Some vs)) /\
      forall i j, inside r i j ->
        (stored r i j -> exists v, GetValue r i j (k + 1) = Ok v /\ nth_error vs (Z.to_nat (i * r_cols r + j)) = Some v) /\
        (~ stored r i j -> GetValue r i j (k + 1) = Ok (r_nodata r) /\ nth_error vs (Z.to_nat (i * r_cols r + j)) = Some (-9999)).
Proof.
  intros feq o asserts ord1 ord2 opened h r filename x y cs HD D G ND HS OX OY OC RD P O. pose proof G as (GR & GC & GN).
  assert (GI : in_int (r_cols r) /\ in_int (r_rows r)) by (unfold in_int, INT_MIN, INT_MAX in *; nia).
  destruct (of_int_exact (r_nodata r) ltac:(lia)) as [FN VN].
  destruct (output_layers show_int feq o asserts ord1 ord2 opened h r filename x y cs _ HD (proj2 GI) (proj1 GI) HS D P O) as (c & A & E).
  eexists. split; [exact E|]. intros k name text N K0 fuel h0 FU.
  assert (K : 0 <= k < r_nlyrs r).
  { split; [exact K0|]. pose proof (proj1 (nth_error_Some _ _) (fun X => eq_ind None (fun o => match o with None => True | Some _ => False end) I _ (eq_trans (eq_sym X) N))) as L.
    rewrite map_length, zseq_length in L. lia. }
  rewrite nth_error_map, zseq_nth in N by lia. cbn [option_map] in N. injection N as _ N.
  assert (N9 : readable show_int cast_int32 (-9999)) by (apply int_readable; unfold in_int, INT_MIN, INT_MAX; lia).
  assert (CN : forall nd', reread (of_int (r_nodata r)) nd' -> exists w, cast_int32 nd' = Ok w).
  { intros nd' R. apply (int_nodata _ _ FN); [|exact R]. rewrite VN, <- abs_IZR. apply IZR_le. exact ND. }
  assert (FC : forall i j, 0 <= i < r_rows r -> 0 <= j < r_cols r -> exists v, readable show_int cast_int32 v /\ c k i j = show_int v).
  { intros i j I J. destruct (A k i j K (conj I J)) as (v & V & [(_ & W)|(_ & _ & W)]).
    - exists v. split; [|exact W]. apply int_readable. apply (RD i j (k + 1)); [split; assumption|split; lia|exact V].
    - exists (-9999). split; [exact N9|exact W]. }
  destruct (grid_trip show_int cast_int32 (r_cols r) (r_rows r) x y cs _ (c k) h0 fuel text G OX OY OC FN CN FC (eq_sym N) FU)
    as (h' & x' & y' & cs' & nd' & vs & R1 & R2 & R3 & R4 & RE & HR & LN & VS).
  exists h', vs. split; [exact RE|]. intros i j I. destruct (A k i j K I) as (v & V & C). pose proof I as [I1 I2]. split.
  - intros S. exists v. split; [exact V|]. destruct C as [(_ & W)|(NS & _)]; [|contradiction]. apply VS; auto.
    apply int_readable. apply (RD i j (k + 1)); [exact I|split; lia|exact V].
  - intros S. destruct C as [(S' & _)|(_ & -> & W)]; [contradiction|]. split; [exact V|]. apply VS; auto.
Qed.
Print Assumptions C42_refuted.

Definition two_dropped : raster Z := fst (ok_or (SetCalcPositions Z.eqb [1; 0; 2]%nat two_layers) (dummy_raster, false)).
Definition values_of {A B C} (r : option (outcome (bool * A * option (list B)))) (d : C) : bool * option (list B) :=
  match r with Some (Ok (b, _, v)) => (b, v) | _ => (false, None) end.
Definition reading (text : bytes) : bool * option (list Z) :=
  values_of (ReadAscFile cast_int32 100 (Some {| content := text; read_error := false |}) [] None) tt.

Example C42_ex : compact two_dropped [0; 1; 3] /\ r_is2d two_dropped = true /\ r_nodata two_dropped = -9 /\
  (exists r, OutputAscFile show_int Z.eqb ex_os true [] [] (fun _ => true) ex_header two_dropped (str "m.asc") =
     Ok (r, true, [(str "/d/m_0.asc", ex_text ++ str "5 6 " ++ newline ++ str "-9999 8 " ++ newline);
                   (str "/d/m_1.asc", ex_text ++ str "50 60 " ++ newline ++ str "-9999 80 " ++ newline)])) /\
  reading (ex_text ++ str "50 60 " ++ newline ++ str "-9999 80 " ++ newline) = (true, Some [50; 60; -9999; 80]) /\ GetValue two_dropped 1 0 2 = Ok (-9).
Proof.
  split; [|split; [reflexivity|split; [reflexivity|split; [eexists; vm_compute; reflexivity|split; vm_compute; reflexivity]]]].
  replace [0; 1; 3] with (valid_idx Z.eqb two_layers) by (vm_compute; reflexivity).
  unfold two_dropped. rewrite (SetCalcPositions_full Z.eqb two_layers [1; 0; 2]%nat full_two); [|apply perm_swap].
  destruct (compacted_shape Z.eqb two_layers full_two) as [(X & _)|(_ & X)]; [vm_compute in X; discriminate|exact X].
Qed.

(** ** C44: writing and reading a grid *)
Theorem C44_ints : forall h0 cols rows x y cs nd vals h fuel,
  header_shows h0 cols rows x y cs nd -> grid_size rows cols -> Z.of_nat (length vals) = rows * cols ->
  ordinary x -> ordinary y -> cell_size cs -> is_finite nd = true -> (Rabs (B2R nd) <= IZR 2147480000)%R -> Forall in_int vals ->
  exists text, WriteSingleAsc show_int true true h0 (Some vals) = Ok (Some text) /\ ((length text < fuel)%nat ->
  exists h' x' y' cs' nd', reread x x' /\ reread y y' /\ reread cs cs' /\ reread nd nd' /\
    ReadAscFile cast_int32 fuel (Some {| content := text; read_error := false |}) h None = Some (Ok (true, h', Some vals)) /\
    header_read h h' cols rows x' y' cs' nd').
Proof.
  intros h0 cols rows x y cs nd vals h fuel HS G L OX OY OC FN BN FI.
  destruct (write_single show_int h0 cols rows x y cs nd vals HS G L) as (v & _ & _ & E). eexists. split; [exact E|]. intros FU.
  eapply (single_trip show_int cast_int32 h0 cols rows x y cs nd vals h fuel); eauto.
  - intros nd' R. exact (int_nodata nd nd' FN BN R).
  - eapply Forall_impl; [|exact FI]. intros z. apply int_readable.
Qed.
Print Assumptions C44_ints.

(** Any cell type and any values whose texts give them back. *)
Theorem C44_cells : forall T (show : T -> bytes) cast h0 cols rows x y cs nd vals h fuel,
  header_shows h0 cols rows x y cs nd -> grid_size rows cols -> Z.of_nat (length vals) = rows * cols ->
  ordinary x -> ordinary y -> cell_size cs -> is_finite nd = true -> (forall nd', reread nd nd' -> exists w, cast nd' = Ok w) ->
  Forall (readable show cast) vals ->
  exists text, WriteSingleAsc show true true h0 (Some vals) = Ok (Some text) /\ ((length text < fuel)%nat ->
  exists h' x' y' cs' nd', reread x x' /\ reread y y' /\ reread cs cs' /\ reread nd nd' /\
    ReadAscFile cast fuel (Some {| content := text; read_error := false |}) h None = Some (Ok (true, h', Some vals)) /\
    header_read h h' cols rows x' y' cs' nd').
Proof.
  intros T show cast h0 cols rows x y cs nd vals h fuel HS G L OX OY OC FN BN FI.
  destruct (write_single show h0 cols rows x y cs nd vals HS G L) as (v & _ & _ & E). eexists. split; [exact E|]. intros FU.
  eapply (single_trip show cast h0 cols rows x y cs nd vals h fuel); eauto.
Qed.
Print Assumptions C44_cells.

Example C44_ex : grid_size 2 2 /\ Forall in_int [INT_MIN; -1; 0; INT_MAX] /\ header_shows ex_header 2 2 (of_int 0) (of_int 3) (of_int 10) (of_int (-9)) /\
  match WriteSingleAsc show_int true true ex_header (Some [INT_MIN; -1; 0; INT_MAX]) with Ok (Some t) => reading t | _ => (false, None) end = (true, Some [INT_MIN; -1; 0; INT_MAX]).
Proof.
  split; [repeat split; unfold INT_MAX; lia|]. split; [repeat constructor; unfold INT_MIN, INT_MAX; lia|]. split; [repeat split; reflexivity|]. vm_compute. reflexivity.
Qed.

(** ** C45: numbers of cells *)

(** Not more numbers than cells: accepted; cells without a number are NoData. *)
Theorem C45_fewer : forall T (cast : f64 -> outcome T) ls text hdr body fs xss fuel h cols rows cx x cy y cs nd v vs,
  text_file ls text -> kept ls (hdr ++ body) -> (length ls <= fuel)%nat ->
  Forall2 header_line hdr fs -> Permutation fs [FCols cols; FRows rows; FX cx x; FY cy y; FCell cs; FNoData nd] ->
  Forall2 number_line body xss -> body <> [] -> grid_size rows cols -> ordinary x -> ordinary y -> cell_size cs -> cast nd = Ok v ->
  Forall2 (fun x c => cast x = Ok c) (concat xss) vs -> Z.of_nat (length vs) <= rows * cols ->
  exists h', ReadAscFile cast fuel (Some {| content := text; read_error := false |}) h None =
    Some (Ok (true, h', Some (vs ++ repeat v (Z.to_nat (rows * cols) - length vs)))).
Proof.
  intros T cast ls text hdr body fs xss fuel h cols rows cx x cy y cs nd v vs TF K FU HF P BF NB G OX OY OC D CV LE.
  destruct (read_counts cast ls text hdr body fs xss fuel h cols rows cx x cy y cs nd v TF K FU HF P BF NB G OX OY OC D) as [R _].
  destruct (R vs CV LE) as (h' & E & _). eauto.
Qed.
Print Assumptions C45_fewer.

(** More numbers than cells: refused, the header as before, no array. *)
Theorem C45_more : forall T (cast : f64 -> outcome T) ls text hdr body fs xss fuel h cols rows cx x cy y cs nd v vs,
  text_file ls text -> kept ls (hdr ++ body) -> (length ls <= fuel)%nat ->
  Forall2 header_line hdr fs -> Permutation fs [FCols cols; FRows rows; FX cx x; FY cy y; FCell cs; FNoData nd] ->
  Forall2 number_line body xss -> body <> [] -> grid_size rows cols -> ordinary x -> ordinary y -> cell_size cs -> cast nd = Ok v ->
  Forall2 (fun x c => cast x = Ok c) (firstn (length vs) (concat xss)) vs -> Z.of_nat (length vs) = rows * cols ->
  Z.of_nat (length (concat xss)) > rows * cols ->
  ReadAscFile cast fuel (Some {| content := text; read_error := false |}) h None = Some (Ok (false, h, None)).
Proof.
  intros T cast ls text hdr body fs xss fuel h cols rows cx x cy y cs nd v vs TF K FU HF P BF NB G OX OY OC D CV LE GT.
  destruct (read_counts cast ls text hdr body fs xss fuel h cols rows cx x cy y cs nd v TF K FU HF P BF NB G OX OY OC D) as [_ R].
  exact (R vs CV LE GT).
Qed.
Print Assumptions C45_more.

(** A cell that is a number with something behind it: refused. *)
Theorem C45_spoiled : forall T (cast : f64 -> outcome T) ls text hdr body l rest ws xs w more fs xss fuel h cols rows cx x cy y cs nd v vs,
  text_file ls text -> kept ls (hdr ++ body ++ l :: rest) -> (length ls <= fuel)%nat ->
  Forall2 header_line hdr fs -> Permutation fs [FCols cols; FRows rows; FX cx x; FY cy y; FCell cs; FNoData nd] ->
  Forall2 number_line body xss -> Words l (ws ++ w :: more) -> ~ ends_blank l -> Forall2 number_word ws xs -> spoiled w ->
  grid_size rows cols -> cast nd = Ok v ->
  Forall2 (fun x c => cast x = Ok c) (concat xss ++ xs) vs -> Z.of_nat (length vs) <= rows * cols ->
  ReadAscFile cast fuel (Some {| content := text; read_error := false |}) h None = Some (Ok (false, h, None)).
Proof.
  intros T cast ls text hdr body l rest ws xs w more fs xss fuel h cols rows cx x cy y cs nd v vs TF K FU HF P BF W B F SP G D CV LE.
  destruct (spoiled_bad w SP) as [S1 S2]. eapply bad_word; eauto.
Qed.
Print Assumptions C45_spoiled.

(** Numbers after the number of columns and before the number of rows: a write
    through a null pointer. *)
Theorem C45_before_rows_refuted : forall T (cast : f64 -> outcome T) ls text hdr l rest fs x xs fuel h c v,
  text_file ls text -> kept ls (hdr ++ l :: rest) -> (length ls <= fuel)%nat ->
  7 <= Z.of_nat (length (hdr ++ l :: rest)) -> Forall2 header_line hdr fs ->
  In (FCols c) fs -> (forall z, In (FCols z) fs -> z = c) -> (forall z, ~ In (FRows z) fs) -> 0 < c <= INT_MAX ->
  number_line l (x :: xs) -> cast x = Ok v ->
  ReadAscFile cast fuel (Some {| content := text; read_error := false |}) h None = Some UB.
Proof. exact @early_data. Qed.
Print Assumptions C45_before_rows_refuted.

(** One number in front of the header of a grid of several cells: writes behind
    an array of one cell. *)
Theorem C45_before_header_refuted : forall T (cast : f64 -> outcome T) ls text l0 hdr l rest fs x0 x xs fuel h cols rows cx xl cy yl cs nd v0 m v,
  text_file ls text -> kept ls (l0 :: hdr ++ l :: rest) -> (length ls <= fuel)%nat ->
  number_line l0 [x0] -> cast MISSINGFLOAT = Ok m -> cast x0 = Ok v0 ->
  Forall2 header_line hdr fs -> Permutation fs [FCols cols; FRows rows; FX cx xl; FY cy yl; FCell cs; FNoData nd] ->
  grid_size rows cols -> 1 < rows * cols -> number_line l (x :: xs) -> cast x = Ok v ->
  ReadAscFile cast fuel (Some {| content := text; read_error := false |}) h None = Some UB.
Proof. exact @first_data. Qed.
Print Assumptions C45_before_header_refuted.

Definition raw_reading {T} (cast : f64 -> outcome T) (text : bytes) (old : option (list T)) : option (option (bool * option (list T))) :=
  match ReadAscFile cast 100 (Some {| content := text; read_error := false |}) [] old with
  | Some (Ok (b, _, v)) => Some (Some (b, v)) | Some _ => Some None | None => None
  end.

Example C45_ex : reading (ex_text ++ str "1 2" ++ newline ++ str "3") = (true, Some [1; 2; 3; -9]) /\
  reading (ex_text ++ str "1 2" ++ newline ++ str "3 4 5") = (false, None) /\
  reading (ex_text ++ str "1 2" ++ newline ++ str "3 4x") = (false, None) /\
  raw_reading cast_int32 (str "NCOLS 2" ++ newline ++ str "1 2" ++ newline ++ ex_text) None = Some None /\
  raw_reading cast_double (str "1" ++ newline ++ ex_text ++ str "1 2") None = Some None.
Proof. repeat split; vm_compute; reflexivity. Qed.

(** ** C76: the header in any order, any case, by corner or centre *)
Theorem C76_header : forall T (cast : f64 -> outcome T) ls text hdr body fs xss fuel h cols rows cx x cy y cs nd v vs,
  text_file ls text -> kept ls (hdr ++ body) -> (length ls <= fuel)%nat ->
  Forall2 header_line hdr fs -> Permutation fs [FCols cols; FRows rows; FX cx x; FY cy y; FCell cs; FNoData nd] ->
  Forall2 number_line body xss -> body <> [] -> grid_size rows cols -> ordinary x -> ordinary y -> cell_size cs -> cast nd = Ok v ->
  Forall2 (fun x c => cast x = Ok c) (concat xss) vs -> Z.of_nat (length vs) = rows * cols ->
  exists h', ReadAscFile cast fuel (Some {| content := text; read_error := false |}) h None = Some (Ok (true, h', Some vs)) /\
    header_read h h' cols rows (centre cx cs x) (centre cy cs y) cs nd.
Proof.
  intros T cast ls text hdr body fs xss fuel h cols rows cx x cy y cs nd v vs TF K FU HF P BF NB G OX OY OC D CV LE.
  destruct (read_counts cast ls text hdr body fs xss fuel h cols rows cx x cy y cs nd v TF K FU HF P BF NB G OX OY OC D) as [R _].
  destruct (R vs CV) as (h' & E & HR); [lia|]. exists h'. split; [|exact HR]. rewrite E.
  replace (Z.to_nat (rows * cols) - length vs)%nat with 0%nat by lia. cbn [repeat]. now rewrite app_nil_r.
Qed.
Print Assumptions C76_header.

(** Whatever the file: when it is accepted, no entry but the NoData value is
    missing, and it has seven significant lines. *)
Theorem C76_complete : forall T (cast : f64 -> outcome T) ls text lines fuel h v0 h' v,
  text_file ls text -> kept ls lines -> (length ls <= fuel)%nat ->
  ReadAscFile cast fuel (Some {| content := text; read_error := false |}) h v0 = Some (Ok (true, h', v)) ->
  (7 <= length lines)%nat /\
  forall names, In names [["NCOLS"]; ["NROWS"]; ["CELLSIZE"]; ["XLLCENTER"; "XLLCORNER"]; ["YLLCENTER"; "YLLCORNER"]]%string ->
    exists l name, In l lines /\ In name names /\ begins l (str name).
Proof.
  intros T cast ls text lines fuel h v0 h' v TF K FU E. destruct (complete cast ls text lines fuel h v0 h' v TF K FU E) as (L7 & A1 & A2 & A3 & A4 & A5). split; [lia|].
  intros names I. cbn [In] in I. destruct I as [<-|[<-|[<-|[<-|[<-|[]]]]]].
  - destruct A1 as (l & I & B). exists l, "NCOLS"%string. cbn; auto.
  - destruct A2 as (l & I & B). exists l, "NROWS"%string. cbn; auto.
  - destruct A3 as (l & I & B). exists l, "CELLSIZE"%string. cbn; auto.
  - destruct A4 as [(l & I & B)|(l & I & B)]; [exists l, "XLLCENTER"%string|exists l, "XLLCORNER"%string]; cbn; auto.
  - destruct A5 as [(l & I & B)|(l & I & B)]; [exists l, "YLLCENTER"%string|exists l, "YLLCORNER"%string]; cbn; auto.
Qed.
Print Assumptions C76_complete.


(** Fewer than seven significant lines (six header lines and one of cells, or a
    file without the NoData line and one row): refused. *)
Theorem C76_short : forall T (cast : f64 -> outcome T) ls text lines fuel h values,
  text_file ls text -> kept ls lines -> (length ls <= fuel)%nat -> (length lines < 7)%nat ->
  ReadAscFile cast fuel (Some {| content := text; read_error := false |}) h values = Some (Ok (false, h, values)).
Proof. exact @short_file. Qed.
Print Assumptions C76_short.

Definition mixed_text : bytes :=
  str "nodata_value -1" ++ newline ++ str "# remark" ++ newline ++ str "CellSize 10" ++ newline ++ str "xllcorner 100" ++ newline ++ newline ++
  str "YLLCENTER 7" ++ newline ++ str "nRows 1" ++ newline ++ str "ncols 3" ++ newline ++ str "1 2 3".
Example C76_ex : reading mixed_text = (true, Some [1; 2; 3]) /\
  reading (str "NCOLS 2" ++ newline ++ str "XLLCENTER 0" ++ newline ++ str "YLLCENTER 3" ++ newline ++ str "CELLSIZE 10" ++ newline ++ str "NODATA_VALUE -9" ++ newline ++ str "CELLSIZE 10" ++ newline ++ str "NODATA_VALUE -9") = (false, None) /\
  match ReadAscFile cast_int32 100 (Some {| content := mixed_text; read_error := false |}) [] None with
  | Some (Ok (_, h, _)) =>
      match lookup h (str "XLLCENTER"), lookup h (str "YLLCENTER") with
      | Some a, Some b => (FloatEqual a (of_int 105), FloatEqual b (of_int 7)) | _, _ => (false, false) end
  | _ => (false, false) end = (true, true).
Proof. repeat split; vm_compute; reflexivity. Qed.

(** ** C77: six significant digits *)
Theorem C77_reread : forall x, is_finite x = true -> exists x', IsDouble f64 strtod (g6 x) = (x', true) /\ reread x x'.
Proof. intros x F. destruct (g6_word x F) as (x' & W & R). exists x'. split; [apply word_double, W|exact R]. Qed.
Print Assumptions C77_reread.

(** The doubles written in six digits survive. *)
Theorem C77_survives : forall (x : f64) y, is_finite x = true -> B2R x = to_double y -> has_six_digits y -> (bpow radix2 (-1022) <= Rabs y)%R ->
  IsDouble f64 strtod (g6 x) = (x, true).
Proof.
  intros x y F E H L. destruct (C77_reread x F) as (x' & D & R). rewrite D. f_equal. pose proof (six_round_trip x y F E H L) as Q.
  destruct (strtod_g6 x F) as [D' _]. rewrite Q in D'. cbn [fst] in D'. exact (double_of_unique _ _ _ _ R D').
Qed.
Print Assumptions C77_survives.

(** Printing once more changes nothing. *)
Theorem C77_stable : forall (x x' : f64), is_finite x = true -> normal_range (six_digits (B2R x)) -> reread x x' -> g6 x' = g6 x.
Proof.
  intros x x' F N R. destruct (strtod_g6 x F) as [D _]. rewrite (double_of_unique _ _ _ _ R D). now apply g6_stable.
Qed.
Print Assumptions C77_stable.

(** A whole number survives exactly if six digits suffice for it. *)
Theorem C77_integers : forall z, Z.abs z <= 2 ^ 49 -> (reread (of_int z) (of_int z) <-> has_six_digits (IZR z)).
Proof.
  intros z Z. rewrite <- (int_survives z Z). destruct (of_int_exact z ltac:(lia)) as [F _]. destruct (strtod_g6 (of_int z) F) as [D N].
  split.
  - intros R. pose proof (double_of_unique _ _ _ _ R D) as E. rewrite (surjective_pairing (strtod (g6 (of_int z)))), N, <- E. reflexivity.
  - intros E. rewrite E in D. exact D.
Qed.
Print Assumptions C77_integers.

Example C77_ex : FloatEqual (fst (IsDouble f64 strtod (g6 (of_int 1234567)))) (of_int 1234570) = true /\ g6 (of_int 1234567) = str "1.23457e+06" /\
  g6 (of_int (-99999)) = str "-99999" /\ has_six_digits (IZR 1234560) /\ ~ has_six_digits (IZR 1234567).
Proof.
  split; [vm_compute; reflexivity|]. split; [vm_compute; reflexivity|]. split; [vm_compute; reflexivity|]. split.
  - exists 123456, 1. split; [|lia]. change (bpow radix10 1) with (IZR 10). rewrite <- mult_IZR. reflexivity.
  - intros H. apply six_digits_fix in H. pose proof (proj2 (C77_integers 1234567 ltac:(lia)) (proj2 (six_digits_fix _) H)) as R.
    destruct (of_int_exact 1234567 ltac:(lia)) as [F _]. destruct (strtod_g6 _ F) as [D _]. pose proof (double_of_unique _ _ _ _ R D) as E.
    apply (f_equal (FloatEqual (of_int 1234570))) in E. vm_compute in E. discriminate.
Qed.

(** ** C78 (false): the NoData value of a file is that of the raster *)

(** Rasters of 32-bit integers with the default NoData value: the file says
    -2147480000. *)
Theorem C78_int_refuted : forall nd', reread (of_int INT_MIN) nd' -> cast_int32 nd' = Ok (-2147480000).
Proof.
  intros nd' R. destruct (of_int_exact INT_MIN ltac:(unfold INT_MIN; lia)) as [F _]. destruct (strtod_g6 _ F) as [D _].
  rewrite (double_of_unique _ _ _ _ R D). vm_compute. reflexivity.
Qed.
Print Assumptions C78_int_refuted.

(** So a written and read grid has cells with the former NoData value which the
    new one does not mark. *)
Theorem C78_cells_refuted : forall h0 cols rows x y cs vals h fuel text,
  header_shows h0 cols rows x y cs (of_int INT_MIN) -> grid_size rows cols -> Z.of_nat (length vals) = rows * cols ->
  ordinary x -> ordinary y -> cell_size cs -> Forall in_int vals ->
  WriteSingleAsc show_int true true h0 (Some vals) = Ok (Some text) -> (length text < fuel)%nat ->
  exists h' nd', ReadAscFile cast_int32 fuel (Some {| content := text; read_error := false |}) h None = Some (Ok (true, h', Some vals)) /\
    lookup h' (str "NODATA_VALUE") = Some nd' /\ cast_int32 nd' = Ok (-2147480000).
Proof.
  intros h0 cols rows x y cs vals h fuel text HS G L OX OY OC FI W FU. destruct (of_int_exact INT_MIN ltac:(unfold INT_MIN; lia)) as [F _].
  destruct (single_trip show_int cast_int32 h0 cols rows x y cs (of_int INT_MIN) vals h fuel text HS G L OX OY OC F) as
    (h' & x' & y' & cs' & nd' & R1 & R2 & R3 & R4 & E & (HR & _)); auto.
  - intros nd' R. eexists. exact (C78_int_refuted nd' R).
  - eapply Forall_impl; [|exact FI]. intros z. apply int_readable.
  - exists h', nd'. split; [exact E|]. split; [apply HR|]. exact (C78_int_refuted nd' R4).
Qed.
Print Assumptions C78_cells_refuted.

(** Rasters of unsigned 32-bit integers with the default NoData value: the
    printed one is out of range. *)
Theorem C78_uint_refuted : forall nd', reread (of_int (2 ^ 32 - 1)) nd' -> cast_int 0 (2 ^ 32 - 1) nd' = UB.
Proof.
  intros nd' R. destruct (of_int_exact (2 ^ 32 - 1) ltac:(lia)) as [F _]. destruct (strtod_g6 _ F) as [D _].
  rewrite (double_of_unique _ _ _ _ R D). vm_compute. reflexivity.
Qed.
Print Assumptions C78_uint_refuted.

(** Reading a file whose NoData value does not fit the cell type is undefined. *)
Theorem C78_read_refuted : forall T (cast : f64 -> outcome T) ls text hdr l rest fs xs fuel h cols rows cx x cy y cs nd,
  text_file ls text -> kept ls (hdr ++ l :: rest) -> (length ls <= fuel)%nat ->
  Forall2 header_line hdr fs -> Permutation fs [FCols cols; FRows rows; FX cx x; FY cy y; FCell cs; FNoData nd] ->
  number_line l xs -> grid_size rows cols -> cast nd = UB ->
  ReadAscFile cast fuel (Some {| content := text; read_error := false |}) h None = Some UB.
Proof. exact @nodata_UB. Qed.
Print Assumptions C78_read_refuted.

Example C78_ex : in_int INT_MIN /\ g6 (of_int INT_MIN) = str "-2.14748e+09" /\ g6 (of_int (2 ^ 32 - 1)) = str "4.29497e+09".
Proof. split; [unfold in_int, INT_MIN, INT_MAX; lia|split; vm_compute; reflexivity]. Qed.

(** ** C79 (false): rasters of 8-bit integers *)

(** Cells are written as characters: 48..57 come back less 48, ... *)
Theorem C79_digits_refuted : forall h0 cols rows x y cs nd vals h fuel text,
  header_shows h0 cols rows x y cs nd -> grid_size rows cols -> Z.of_nat (length vals) = rows * cols ->
  ordinary x -> ordinary y -> cell_size cs -> is_finite nd = true -> (0 <= B2R nd <= 255)%R -> Forall (fun v => 48 <= v <= 57) vals ->
  WriteSingleAsc show_uint8 true true h0 (Some vals) = Ok (Some text) -> (length text < fuel)%nat ->
  exists h', ReadAscFile cast_uint8 fuel (Some {| content := text; read_error := false |}) h None = Some (Ok (true, h', Some (map (fun v => v - 48) vals))).
Proof. exact byte_digits. Qed.
Print Assumptions C79_digits_refuted.

(** ... letters are refused. *)
Theorem C79_letters_refuted : forall h0 cols rows x y cs nd vals h fuel text,
  header_shows h0 cols rows x y cs nd -> grid_size rows cols -> Z.of_nat (length vals) = rows * cols ->
  ordinary x -> ordinary y -> cell_size cs -> is_finite nd = true -> (0 <= B2R nd <= 255)%R -> Forall (fun v => 65 <= v <= 90) vals ->
  WriteSingleAsc show_uint8 true true h0 (Some vals) = Ok (Some text) -> (length text < fuel)%nat ->
  ReadAscFile cast_uint8 fuel (Some {| content := text; read_error := false |}) h None = Some (Ok (false, h, None)).
Proof. exact byte_letters. Qed.
Print Assumptions C79_letters_refuted.

Definition byte_header : smap f64 :=
  [(str "NCOLS", of_int 2); (str "NROWS", of_int 2); (str "XLLCENTER", of_int 0); (str "YLLCENTER", of_int 3); (str "CELLSIZE", of_int 10); (str "NODATA_VALUE", of_int 255)].
Definition byte_trip (vals : list Z) :=
  match WriteSingleAsc show_uint8 true true byte_header (Some vals) with Ok (Some t) => raw_reading cast_uint8 t None | _ => None end.
Example C79_ex : byte_trip [49; 50; 51; 57] = Some (Some (true, Some [1; 2; 3; 9])) /\ byte_trip [65; 66; 67; 68] = Some (Some (false, None)).
Proof. split; vm_compute; reflexivity. Qed.

(** ** C80 (false): the reader allocates the array it fills *)

(** An array the caller already has is used as it is: a larger file is written
    behind its end. *)
Theorem C80_refuted : forall T (cast : f64 -> outcome T) ls text hdr body fs xss fuel h cols rows cx x cy y cs nd old vs,
  text_file ls text -> kept ls (hdr ++ body) -> (length ls <= fuel)%nat ->
  Forall2 header_line hdr fs -> Permutation fs [FCols cols; FRows rows; FX cx x; FY cy y; FCell cs; FNoData nd] ->
  Forall2 number_line body xss -> body <> [] -> grid_size rows cols ->
  Forall2 (fun x c => cast x = Ok c) (concat xss) vs -> Z.of_nat (length vs) <= rows * cols -> (length old < length vs)%nat ->
  ReadAscFile cast fuel (Some {| content := text; read_error := false |}) h (Some old) = Some UB.
Proof. exact @reused_array. Qed.
Print Assumptions C80_refuted.

Example C80_ex : raw_reading cast_int32 (ex_text ++ str "1 2 3 4") (Some [7; 7; 7; 7]) = Some (Some (true, Some [1; 2; 3; 4])) /\
  raw_reading cast_int32 (ex_text ++ str "1 2 3 4") (Some [7; 7; 7]) = Some None.
Proof. split; vm_compute; reflexivity. Qed.
