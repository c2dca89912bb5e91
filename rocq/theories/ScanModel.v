(** The part of C's [sscanf] used by the code (basic.cpp:54, utils_time.cpp:128,
    130,192): directives %d, %<width>d, literal characters, white space.
    glibc behaviour for out-of-range numbers: saturate to [long], then convert
    to [int]. *)
From Coq Require Import ZArith Ascii List Bool.
From Verif Require Import Base StrModel.
Import ListNotations.
Open Scope Z_scope.

(** Called at basic.cpp:54, utils_time.cpp:128. *)
Inductive directive := SInt (width : option nat) | SLit (c : ascii) | SWs.

(** Format text to directives; [None] for conversions outside the modelled
    part. [st]: inside a conversion, the width read so far.
    Called at basic.cpp:54, utils_time.cpp:128. *)
Fixpoint parse_fmt (st : option Z) (s : bytes) : option (list directive) :=
  match s with
  | [] => match st with None => Some [] | Some _ => None end
  | c :: t =>
      match st with
      | None => if ascii_dec c "%" then parse_fmt (Some 0) t
                else option_map (cons (if isspace c then SWs else SLit c)) (parse_fmt None t)
      | Some w => if isdigit c then parse_fmt (Some (w * 10 + (code c - 48))) t
                  else if ascii_dec c "d"
                       then option_map (cons (SInt (if w =? 0 then None else Some (Z.to_nat w)))) (parse_fmt None t)
                       else None
      end
  end.

(** Called at basic.cpp:54, utils_time.cpp:128. *)
Definition clamp_long (z : Z) : Z := Z.max LONG_MIN (Z.min LONG_MAX z).

(** One %d conversion: skip white space, then at most [width] characters of an
    optional sign and digits. Called at basic.cpp:54, utils_time.cpp:128. *)
Definition scan_int (width : option nat) (s : bytes) : option (Z * bytes) :=
  let s1 := skip_ws s in
  let '(win, out) := match width with Some w => (firstn w s1, skipn w s1) | None => (s1, []) end in
  let '(neg, s2) := match win with
                    | c :: t => if ascii_dec c "-" then (true, t)
                                else if ascii_dec c "+" then (false, t) else (false, win)
                    | [] => (false, win)
                    end in
  match s2 with
  | c :: _ => if isdigit c then
                let (v, r) := digits 0 s2 in
                Some (wrap32 (clamp_long (if neg then - v else v)), r ++ out)
              else None
  | [] => None
  end.

(** The values assigned, in order. Called at basic.cpp:54, utils_time.cpp:128. *)
Fixpoint sscanf (ds : list directive) (s : bytes) : list Z :=
  match ds with
  | [] => []
  | SWs :: ds' => sscanf ds' (skip_ws s)
  | SLit c :: ds' => match s with
                     | c' :: t => if ascii_dec c' c then sscanf ds' t else []
                     | [] => []
                     end
  | SInt w :: ds' => match scan_int w s with
                     | Some (v, r) => v :: sscanf ds' r
                     | None => []
                     end
  end.
