(** Vocabulary for ASC raster files. *)
From Coq Require Import ZArith Reals Ascii String List Bool Permutation.
From Flocq Require Import Core BinarySingleNaN.
From Verif Require Import Base StrSpec FsSpec MapModel FloatModel CoordFloatModel RasterModel RasterSpec NumSpec.
Import ListNotations.
Open Scope Z_scope.

(** ** What a file says *)

(** The header entries of a file: columns, rows, lower left corner (of the cell,
    [true], or its centre), cell size, NoData value. *)
Inductive field :=
| FCols (z : Z) | FRows (z : Z) | FX (corner : bool) (x : f64) | FY (corner : bool) (y : f64)
| FCell (x : f64) | FNoData (x : f64).

Definition keyword (f : field) : bytes :=
  str match f with
      | FCols _ => "NCOLS" | FRows _ => "NROWS"
      | FX true _ => "XLLCORNER" | FX false _ => "XLLCENTER"
      | FY true _ => "YLLCORNER" | FY false _ => "YLLCENTER"
      | FCell _ => "CELLSIZE" | FNoData _ => "NODATA_VALUE"
      end%string.

(** [w] is a decimal number whose nearest double is [x]. *)
Definition number_word (w : bytes) (x : f64) : Prop :=
  no_space w /\ exists neg ds k, number_text neg ds k w /\ double_of neg (number_value neg ds k) x.

(** [w] is the number of the entry. *)
Definition entry_word (w : bytes) (f : field) : Prop :=
  match f with
  | FCols z | FRows z => canonical w z /\ in_int z
  | FX _ x | FY _ x | FCell x | FNoData x => number_word w x
  end.

(** The line is the keyword in any mixture of cases, the number, and whatever
    follows. *)
Definition header_line (l : bytes) (f : field) : Prop :=
  exists k w rest, Words l (k :: w :: rest) /\ ~ ends_blank l /\ Forall2 same_letter k (keyword f) /\ entry_word w f.

(** The first word of the line is [K], in any mixture of cases. *)
Definition begins (l K : bytes) : Prop := exists k rest, Words l (k :: rest) /\ Forall2 same_letter k K.

(** The line consists of numbers. *)
Definition number_line (l : bytes) (xs : list f64) : Prop :=
  exists ws, Words l ws /\ ~ ends_blank l /\ ws <> [] /\ Forall2 number_word ws xs.

(** Sizes and coordinates a reader has no reason to refuse. *)
Definition ordinary (x : f64) : Prop := is_finite x = true /\ (Rabs (B2R x) <= IZR (10 ^ 22))%R.
Definition cell_size (x : f64) : Prop := ordinary x /\ (0 <= B2R x)%R.
Definition grid_size (rows cols : Z) : Prop := 0 < rows /\ 0 < cols /\ rows * cols <= INT_MAX.

(** Centre of the lower left cell. *)
Definition one_half : f64 := fdiv (of_int 1) (of_int 2).
Definition centre (corner : bool) (cs x : f64) : f64 := if corner then fadd x (fmul one_half cs) else x.

(** The entries a raster header must have for these data. *)
Definition header_shows (h : smap f64) (cols rows : Z) (x y cs nd : f64) : Prop :=
  lookup h (str "NCOLS") = Some (of_int cols) /\ lookup h (str "NROWS") = Some (of_int rows) /\
  lookup h (str "XLLCENTER") = Some x /\ lookup h (str "YLLCENTER") = Some y /\
  lookup h (str "CELLSIZE") = Some cs /\ lookup h (str "NODATA_VALUE") = Some nd.

(** Those and the number of layers and cells; all other entries as before. *)
Definition header_read (h0 h : smap f64) (cols rows : Z) (x y cs nd : f64) : Prop :=
  header_shows h cols rows x y cs nd /\
  lookup h (str "LAYERS") = Some (of_int 1) /\ lookup h (str "CELLSNUM") = Some (of_int (cols * rows)) /\
  forall k, ~ In k header_keys -> lookup h k = lookup h0 k.

(** A text file with the lines [ls]. *)
Definition text_file (ls : list bytes) (s : bytes) : Prop :=
  ls <> [] /\ Forall (fun l => ~ In "010"%char l) ls /\ s = join "010" ls.

(** ** What a grid is written as *)

(** Rows from the top, cells from the left, a blank after each cell and a line
    feed after each row. *)
Definition row_text (cell : Z -> bytes) (cols : Z) : bytes :=
  flat_map (fun j => cell j ++ [" "%char]) (zseq cols).
Definition grid_text (cell : Z -> Z -> bytes) (rows cols : Z) : bytes :=
  flat_map (fun i => row_text (cell i) cols ++ ["010"%char]) (zseq rows).

(** A cell value whose text is a number that gives the value back. *)
Definition readable {T} (show : T -> bytes) (cast : f64 -> outcome T) (v : T) : Prop :=
  no_space (show v) /\ exists neg ds k, number_text neg ds k (show v) /\
    forall x, double_of neg (number_value neg ds k) x -> cast x = Ok v.

(** [x'] is [x] after printing with six digits and reading again. *)
Definition reread (x x' : f64) : Prop := double_of (Bsign x) (six_digits (B2R x)) x'.

(** A header as a file starts with it: one entry per line. *)
Definition header_part (t : bytes) (cols rows : Z) (x y cs nd : f64) : Prop :=
  exists ls, Forall (fun l => ~ In "010"%char l) ls /\
    Forall2 header_line ls [FCols cols; FRows rows; FX false x; FY false y; FCell cs; FNoData nd] /\
    t = flat_map (fun l => l ++ ["010"%char]) ls.

(** The header with the real numbers printed with six digits. *)
Definition printed_header (t : bytes) (cols rows : Z) (x y cs nd : f64) : Prop :=
  exists x' y' cs' nd', reread x x' /\ reread y y' /\ reread cs cs' /\ reread nd nd' /\ header_part t cols rows x' y' cs' nd'.

(** All of them finite. *)
Definition finite4 (x y cs nd : f64) : Prop :=
  is_finite x = true /\ is_finite y = true /\ is_finite cs = true /\ is_finite nd = true.

(** A raster that holds data. *)
Definition holds_data {T} (r : raster T) : Prop := full_grid r \/ exists ix, compact r ix.

(** The values of layer [lyr], row by row. *)
Definition layer_values {T} (r : raster T) (lyr : Z) (vs : list T) : Prop :=
  Z.of_nat (length vs) = r_rows r * r_cols r /\
  forall i j, inside r i j -> exists v, nth_error vs (Z.to_nat (i * r_cols r + j)) = Some v /\ GetValue r i j lyr = Ok v.

(** A number with something behind it that cannot belong to a number. *)
Definition spoiled (w : bytes) : Prop :=
  no_space w /\ exists neg ds k s c r, number_text neg ds k s /\ ~ In c continues /\ w = s ++ c :: r.
