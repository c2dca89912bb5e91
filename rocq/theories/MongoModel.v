(** Reading and writing of BSON metadata and collection names
    (src/db_mongoc.cpp, src/db_mongoc.h). The MongoDB driver is external: what
    it delivers (a document, a list of collection names) is an argument.
    Proof-free. *)
From Coq Require Import ZArith Ascii String List Bool.
From Flocq Require Import BinarySingleNaN.
From Verif Require Import Base StrModel TimeModel FloatModel TypeModel CoordFloatModel RasterModel.
Import ListNotations.
Open Scope Z_scope.
Open Scope outcome_scope.

(** The value types the code tells apart ([bson_value_t]); [BOther] is any other
    type. Texts hold no NUL byte. Handled at db_mongoc.cpp:481-584. *)
Inductive bson_value : Type :=
| BUtf8 (s : bytes) | BInt32 (z : Z) | BInt64 (z : Z) | BDouble (x : f64) | BDate (ms : Z) | BOther.

(** A document: its fields in order. Handled at db_mongoc.cpp:481-584. *)
Definition bson := list (bytes * bson_value).

(** [bson_iter_init] and [bson_iter_find]: the first field of that name.
    db_mongoc.cpp:523, 551, 579. *)
Fixpoint bson_find (d : bson) (key : bytes) : option bson_value :=
  match d with
  | [] => None
  | (k, v) :: t => if beqb k key then Some v else bson_find t key
  end.

(** [float]: binary32, and its value as a [double]. The type of CVT_FLT (basic.h:329). *)
Definition f32 : Type := binary_float 24 128.
(** The type of CVT_FLT (basic.h:329). *)
Definition prec_gt_0_24 : FLX.Prec_gt_0 24 := eq_refl.
(** The type of CVT_FLT (basic.h:329). *)
Definition prec_lt_24 : Prec_lt_emax 24 128 := eq_refl.
(** The type of CVT_FLT (basic.h:329). *)
Definition f32_norm (m e : Z) (s : bool) : f32 := binary_normalize 24 128 prec_gt_0_24 prec_lt_24 mode_NE m e s.
(** CVT_FLT of an integer and of a [double] (overflow gives infinity). basic.h:329. *)
Definition f32_of_int (z : Z) : f32 := f32_norm z 0 false.
(** basic.h:329. *)
Definition f32_of_f64 (x : f64) : f32 :=
  match x with
  | B754_zero s => B754_zero s
  | B754_infinity s => B754_infinity s
  | B754_nan => B754_nan
  | B754_finite s m e _ => f32_norm (SpecFloat.cond_Zopp s (Zpos m)) e s
  end.
(** basic.h:331. *)
Definition f64_of_f32 (x : f32) : f64 :=
  match x with
  | B754_zero s => B754_zero s
  | B754_infinity s => B754_infinity s
  | B754_nan => B754_nan
  | B754_finite s m e _ => binary_normalize 53 1024 prec_gt_0_53 prec_lt_53 mode_NE (SpecFloat.cond_Zopp s (Zpos m)) e s
  end.

(** db_mongoc.cpp:530-547 GetBoolFromBsonIterator and 549-556 GetBoolFromBson. *)
Definition GetBoolFromBsonIterator (v : bson_value) : bool :=
  match v with
  | BInt32 z => FloatEqual (f64_of_f32 (f32_of_int z)) f64_zero
  | BInt64 z => FloatEqual (f64_of_f32 (f32_of_int z)) f64_zero
  | BDouble x => FloatEqual (f64_of_f32 (f32_of_f64 x)) f64_zero
  | BUtf8 s => StringMatch s (str "TRUE")
  | _ => false
  end.
(** db_mongoc.cpp:549-556. *)
Definition GetBoolFromBson (d : bson) (key : bytes) : bool :=
  match bson_find d key with Some v => GetBoolFromBsonIterator v | None => false end.

(** [substr(0, n)] where [n] wrapped around below zero is larger than any text.
    db_mongoc.cpp:562. *)
Definition substr0 (s : bytes) (n : Z) : bytes := if n <? 0 then s else firstn (Z.to_nat n) s.
(** [atoi]: [strtol] cut to 32 bits. db_mongoc.cpp:563. *)
Definition atoi (s : bytes) : Z := wrap32 (fst (strtol s)).

(** db_mongoc.cpp:558-575 GetDatetimeFromBsonIterator, 577-584
    GetDatetimeFromBson. The text formats lie in the modelled part of
    [ConvertToTime]. *)
Definition GetDatetimeFromBsonIterator (v : bson_value) : option (outcome Z) :=
  match v with
  | BDate ms => let s := itoa ms in Some (Ok (atoi (substr0 s (Z.of_nat (length s) - 3))))
  | BUtf8 s => if (12 <? Z.of_nat (length s))
               then ConvertToTime s (str "%4d-%2d-%2d %2d:%2d:%2d") true
               else ConvertToTime s (str "%4d-%2d-%2d") false
  | _ => Some (Ok (-1))
  end.
(** db_mongoc.cpp:577-584. *)
Definition GetDatetimeFromBson (d : bson) (key : bytes) : option (outcome Z) :=
  match bson_find d key with Some v => GetDatetimeFromBsonIterator v | None => Some (Ok (-1)) end.

Section External.
(** [strtod] and the text of a [double] in an output stream are external.
    db_mongoc.cpp:481-501, db_mongoc.h:206. *)
Variable strtod : bytes -> f64 * nat.
(** db_mongoc.cpp:503-519. *)
Variable show_double : f64 -> bytes.

(** db_mongoc.cpp:503-519 GetStringFromBsonIterator, 521-528 GetStringFromBson. *)
Definition GetStringFromBsonIterator (v : bson_value) : bytes :=
  match v with
  | BUtf8 s => s
  | BInt32 z => itoa z
  | BInt64 z => itoa z
  | BDouble x => show_double x
  | _ => []
  end.
(** db_mongoc.cpp:521-528. *)
Definition GetStringFromBson (d : bson) (key : bytes) : bytes :=
  match bson_find d key with Some v => GetStringFromBsonIterator v | None => [] end.

(** db_mongoc.h:190-212 GetNumericFromBsonIterator, for [int] and [double]:
    [None] when it fails and leaves its argument alone. Casting a [double] that
    does not fit is undefined. *)
Definition GetNumeric_int (v : bson_value) : outcome (option Z) :=
  match v with
  | BInt32 z => Ok (Some z)
  | BInt64 z => Ok (Some (wrap32 z))
  | BDouble x => let* z := f_int x in Ok (Some z)
  | BUtf8 s => if existsb isdigit s then let* z := f_int (fst (strtod s)) in Ok (Some z) else Ok None
  | _ => Ok None
  end.
(** db_mongoc.h:190-212. *)
Definition GetNumeric_dbl (v : bson_value) : option f64 :=
  match v with
  | BInt32 z => Some (of_int z)
  | BInt64 z => Some (of_int z)
  | BDouble x => Some x
  | BUtf8 s => if existsb isdigit s then Some (fst (strtod s)) else None
  | _ => None
  end.

(** [std::modf(x, &i) == 0.0]. db_mongoc.cpp:494. *)
Definition is_whole (x : f64) : bool :=
  match x with
  | B754_nan => false
  | B754_finite _ m e _ => (0 <=? e) || (Zpos m mod 2 ^ (- e) =? 0)
  | _ => true
  end.

(** db_mongoc.cpp:481-501 AppendStringOptionsToBson, one option and all. *)
Definition append_option (prefix : bytes) (doc : bson) (kv : bytes * bytes) : outcome bson :=
  let field := prefix ++ fst kv in
  let (d, is_dbl) := IsDouble f64 strtod (snd kv) in
  if StringMatch [] (snd kv) || negb is_dbl then Ok (doc ++ [(field, BUtf8 (snd kv))])
  else if is_whole d then let* z := f_int d in Ok (doc ++ [(field, BInt32 z)])
  else Ok (doc ++ [(field, BDouble d)]).
(** db_mongoc.cpp:481-501. *)
Definition AppendStringOptionsToBson (doc : bson) (opts : list (bytes * bytes)) (prefix : bytes) : outcome bson :=
  ofold (append_option prefix) opts doc.
End External.

(** db_mongoc.cpp:227-233 GetCollectionNames: names without repetitions. *)
Definition known (l : list bytes) (n : bytes) : bool := existsb (beqb n) l.
(** db_mongoc.cpp:227-233. *)
Definition add_new (l : list bytes) (n : bytes) : list bytes := if known l n then l else l ++ [n].

(** db_mongoc.cpp:235-252: one collection name; [back] of an empty vector is
    undefined. *)
Definition real_step (coll acc : list bytes) (name : bytes) : outcome (list bytes) :=
  match rev (SplitString_d name ".") with
  | [] => UB
  | suffix :: front =>
      if beqb suffix (str "files") || beqb suffix (str "chunks") then
        let realname := concat (rev front) in
        let another := realname ++ (if beqb suffix (str "files") then str ".chunks" else str ".files") in
        if known coll another then Ok (add_new acc realname) else Ok acc
      else Ok acc
  end.

(** db_mongoc.cpp:215-262 MongoDatabase::GetCollectionNames, given the names the
    driver returned. *)
Definition GetCollectionNames (names : list bytes) : outcome (list bytes) :=
  let coll := fold_left add_new names [] in
  let* real := ofold (real_step coll) coll [] in
  Ok (coll ++ real).
