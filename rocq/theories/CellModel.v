(** Cell values of the ten data types of rasters (src/data_raster.hpp:118-133):
    C++ conversions and comparisons between them, and their bytes. Widths and
    literal types are those of a 64-bit Linux system. Proof-free. *)
From Coq Require Import ZArith Ascii List Bool.
From Flocq Require Import BinarySingleNaN.
From Flocq Require Binary Bits.
From Verif Require Import Base BasicModel FloatModel TypeModel MongoModel RasterModel.
Import ListNotations.
Open Scope Z_scope.
Open Scope outcome_scope.

(** A value of an integer type, of type float, of type double.
    The cell types of data_raster.hpp:121-133. *)
Inductive num := VI (z : Z) | VF (x : f32) | VD (x : f64).

(** Conversion to an integer type with the range lo..hi: reduced modulo the
    number of values (two's complement).
    The conversions of utils_array.h:349, 375 and data_raster.hpp:621. *)
Definition wrap (lo hi z : Z) : Z := lo + (z - lo) mod (hi - lo + 1).

(** [static_cast] to the type: out of range, a floating value converted to an
    integer type is undefined; a double too large for float gives infinity.
    The conversions of utils_array.h:349, 375 and data_raster.hpp:621. *)
Definition cvt (t : rdt) (v : num) : outcome num :=
  match t with
  | RDT_Unknown => UB
  | RDT_Float => Ok (VF (match v with VI z => f32_of_int z | VF x => x | VD x => f32_of_f64 x end))
  | RDT_Double => Ok (VD (match v with VI z => of_int z | VF x => f64_of_f32 x | VD x => x end))
  | _ => match int_range t with
         | None => UB
         | Some (lo, hi) =>
             match v with
             | VI z => Ok (VI (wrap lo hi z))
             | VF x => let* z := cast_int lo hi (f64_of_f32 x) in Ok (VI z)
             | VD x => let* z := cast_int lo hi x in Ok (VI z)
             end
         end
  end.

(** CVT_DBL (src/basic.h:331). *)
Definition as_double (v : num) : f64 :=
  match v with VI z => of_int z | VF x => f64_of_f32 x | VD x => x end.

(** An integer type by its width and signedness; small types are promoted to
    int. Operands of the comparisons of data_raster.hpp:606-771. *)
Definition ity : Type := Z * bool.
(** Operands of the comparisons of data_raster.hpp:606-771. *)
Definition promoted (t : rdt) : ity :=
  match t with
  | RDT_UInt32 => (32, false) | RDT_UInt64 => (64, false) | RDT_Int64 => (64, true) | _ => (32, true)
  end.
(** The usual arithmetic conversions: the wider type; unsigned if an operand of
    that width is unsigned. Operands of the comparisons of data_raster.hpp:606-771. *)
Definition common (a b : ity) : ity :=
  let w := Z.max (fst a) (fst b) in
  (w, (snd a || (fst a <? w)) && (snd b || (fst b <? w))).
(** Operands of the comparisons of data_raster.hpp:606-771. *)
Definition wrap_ity (i : ity) (z : Z) : Z :=
  if snd i then wrap (- 2 ^ (fst i - 1)) (2 ^ (fst i - 1) - 1) z else wrap 0 (2 ^ fst i - 1) z.

(** [v < c] and [v > c] for a cell [v] of type [s] and an integer constant [c] of
    type [l]. data_raster.hpp:620 and the like. *)
Definition less (s : rdt) (v : num) (c : Z) (l : ity) : bool :=
  match v with
  | VI z => let i := common (promoted s) l in wrap_ity i z <? wrap_ity i c
  | VF x => Bltb x (f32_of_int c)
  | VD x => Bltb x (of_int c)
  end.
(** data_raster.hpp:620 and the like. *)
Definition greater (s : rdt) (v : num) (c : Z) (l : ity) : bool :=
  match v with
  | VI z => let i := common (promoted s) l in wrap_ity i c <? wrap_ity i z
  | VF x => Bltb (f32_of_int c) x
  | VD x => Bltb (of_int c) x
  end.

(** The constants UINT8_MAX, INT8_MIN, ... (stdint.h) with their types; [0] is
    an int. Used at data_raster.hpp:606-771. *)
Definition limits (t : rdt) : option ((Z * ity) * (Z * ity)) :=
  let int := (32, true) in
  match t with
  | RDT_UInt8 => Some ((0, int), (255, int))
  | RDT_Int8 => Some ((-128, int), (127, int))
  | RDT_UInt16 => Some ((0, int), (65535, int))
  | RDT_Int16 => Some ((-32768, int), (32767, int))
  | RDT_UInt32 => Some ((0, int), (4294967295, (32, false)))
  | RDT_Int32 => Some ((-2147483648, int), (2147483647, int))
  | RDT_UInt64 => Some ((0, int), (18446744073709551615, (64, false)))
  | RDT_Int64 => Some ((-9223372036854775808, (64, true)), (9223372036854775807, (64, true)))
  | RDT_Unknown | RDT_Float | RDT_Double => None
  end.

(** utils_array.h:358-379 Initialize1DArray from an array of another type, into a
    null pointer: every element converted. The iterations are independent of
    each other. *)
Definition convert_array (t : rdt) (n : Z) (p : list num) : outcome (list num) :=
  ofold (fun acc i => let* v := aget p i in let* w := cvt t v in Ok (acc ++ [w])) (zseq n) [].

(** ** Bytes *)

(** [sizeof]. The sizes compared at data_raster.hpp:919-968. *)
Definition size_of (t : rdt) : Z :=
  match t with
  | RDT_Unknown => 0
  | RDT_UInt8 | RDT_Int8 => 1
  | RDT_UInt16 | RDT_Int16 => 2
  | RDT_UInt32 | RDT_Int32 | RDT_Float => 4
  | RDT_UInt64 | RDT_Int64 | RDT_Double => 8
  end.

(** IEEE encodings. NaN payloads are not represented: a NaN is written with one
    fixed payload.
    The [reinterpret_cast] of data_raster.hpp:920-965 and the unions of utils_math.cpp:19-22, 60-63. *)
Definition nan32 : {x : Binary.binary_float 24 128 | Binary.is_nan 24 128 x = true} :=
  exist _ (Binary.B754_nan 24 128 false 4194304 eq_refl) eq_refl.
(** The [reinterpret_cast] of data_raster.hpp:920-965 and the unions of utils_math.cpp:19-22, 60-63. *)
Definition nan64 : {x : Binary.binary_float 53 1024 | Binary.is_nan 53 1024 x = true} :=
  exist _ (Binary.B754_nan 53 1024 false 2251799813685248 eq_refl) eq_refl.
(** The [reinterpret_cast] of data_raster.hpp:920-965 and the unions of utils_math.cpp:19-22, 60-63. *)
Definition bits32 (x : f32) : Z := Bits.bits_of_b32 (Binary.BSN2B 24 128 nan32 x).
(** The [reinterpret_cast] of data_raster.hpp:920-965 and the unions of utils_math.cpp:19-22, 60-63. *)
Definition bits64 (x : f64) : Z := Bits.bits_of_b64 (Binary.BSN2B 53 1024 nan64 x).
(** The [reinterpret_cast] of data_raster.hpp:920-965 and the unions of utils_math.cpp:19-22, 60-63. *)
Definition of_bits32 (z : Z) : f32 := Binary.B2BSN 24 128 (Bits.b32_of_bits z).
(** The [reinterpret_cast] of data_raster.hpp:920-965 and the unions of utils_math.cpp:19-22, 60-63. *)
Definition of_bits64 (z : Z) : f64 := Binary.B2BSN 53 1024 (Bits.b64_of_bits z).

(** Little endian: [n] bytes of [z], and the number they form.
    The [reinterpret_cast] of data_raster.hpp:920-965 and the unions of utils_math.cpp:19-22, 60-63. *)
Fixpoint le_bytes (n : nat) (z : Z) : bytes :=
  match n with
  | O => []
  | S k => ascii_of_nat (Z.to_nat (z mod 256)) :: le_bytes k (z / 256)
  end.
(** The [reinterpret_cast] of data_raster.hpp:920-965 and the unions of utils_math.cpp:19-22, 60-63. *)
Fixpoint le_value (b : bytes) : Z :=
  match b with
  | [] => 0
  | c :: r => Z.of_nat (nat_of_ascii c) + 256 * le_value r
  end.

(** The bytes of a value stored as the type, and the value stored in them.
    The [reinterpret_cast] of data_raster.hpp:920-965 and the unions of utils_math.cpp:19-22, 60-63. *)
Definition encode (t : rdt) (v : num) : bytes :=
  let n := Z.to_nat (size_of t) in
  match v with
  | VI z => le_bytes n z
  | VF x => le_bytes n (bits32 x)
  | VD x => le_bytes n (bits64 x)
  end.
(** The [reinterpret_cast] of data_raster.hpp:920-965 and the unions of utils_math.cpp:19-22, 60-63. *)
Definition decode (t : rdt) (b : bytes) : num :=
  match t with
  | RDT_Float => VF (of_bits32 (le_value b))
  | RDT_Double => VD (of_bits64 (le_value b))
  | _ => match int_range t with Some (lo, hi) => VI (wrap lo hi (le_value b)) | None => VI (le_value b) end
  end.
