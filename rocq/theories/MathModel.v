(** Array mathematics (src/utils_math.h). Arithmetic on [double] is exact
    rational arithmetic here; see FloatModel for IEEE 754. *)
From Coq Require Import ZArith QArith List Bool.
From Verif Require Import Base.
Import ListNotations.
Open Scope Z_scope.
Open Scope outcome_scope.

(** [for (int i = lo; i < hi; i++)]: the loop indices. E.g. utils_math.h:341, 390. *)
Definition range (lo hi : Z) : list Z := map (fun k => lo + Z.of_nat k) (seq 0 (Z.to_nat (hi - lo))).

(** A sequential loop carrying state [s]. E.g. utils_math.h:341, 390. *)
Definition forloop {S} (ix : list Z) (body : S -> Z -> outcome S) (s : S) : outcome S :=
  fold_left (fun acc i => let* s := acc in body s i) ix (Ok s).

Section Order.
Context {T : Type}.
(** The operator [<] on T (utils_math.h:342, 353). *)
Variable ltb : T -> T -> bool.

(** utils_math.h:339-347 MaxInArray. *)
Definition MaxInArray (a : list T) (n : Z) : outcome T :=
  let* m := aget a 0 in
  forloop (range 1 n) (fun m i => let* v := aget a i in Ok (if ltb m v then v else m)) m.

(** utils_math.h:350-358 MinInArray. *)
Definition MinInArray (a : list T) (n : Z) : outcome T :=
  let* m := aget a 0 in
  forloop (range 1 n) (fun m i => let* v := aget a i in Ok (if ltb v m then v else m)) m.
End Order.

(** One way an OpenMP team may carry out [parallel for reduction(+:x)]: which
    thread runs which iterations in which order, and how the partial results
    are combined. utils_math.h:363, 373, 399, 447. *)
Inductive team := Thread (its : list nat) | Combine (l r : team).

(** utils_math.h:363, 373, 399, 447. *)
Fixpoint iterations (t : team) : list nat :=
  match t with Thread its => its | Combine l r => iterations l ++ iterations r end.

Section Reduce.
Context {T : Type}.
(** The clause [reduction(+:...)] of utils_math.h:363, 373, 399, 447. *)
Variable add : T -> T -> outcome T.
(** The clause [reduction(+:...)] of utils_math.h:363, 373, 399, 447. *)
Variable zero : T.

(** The reduction: private copies start at zero; [term i] is what iteration [i]
    adds, if anything. The clause [reduction(+:...)] of utils_math.h:363, 373, 399, 447. *)
Fixpoint partial (term : nat -> outcome (option T)) (t : team) : outcome T :=
  match t with
  | Thread its =>
      fold_left (fun acc i => let* s := acc in let* v := term i in
                              match v with Some x => add s x | None => Ok s end) its (Ok zero)
  | Combine l r => let* a := partial term l in let* b := partial term r in add a b
  end.

(** The clause [reduction(+:...)] of utils_math.h:363, 373, 399, 447. *)
Definition reduce (term : nat -> outcome (option T)) (init : T) (t : team) : outcome T :=
  let* s := partial term t in add init s.

(** utils_math.h:361-368 Sum(row, data). *)
Definition Sum (data : list T) (t : team) : outcome T :=
  reduce (fun i => let* v := aget data (Z.of_nat i) in Ok (Some v)) zero t.

(** utils_math.h:371-379 Sum(row, idx, data). *)
Definition Sum_idx (idx : list Z) (data : list T) (t : team) : outcome T :=
  reduce (fun i => let* j := aget idx (Z.of_nat i) in let* v := aget data j in Ok (Some v)) zero t.
End Reduce.

(** Additions: exact, and on [int] with overflow undefined.
    The operator [+=] of utils_math.h:365, 376, 402. *)
Definition zadd (a b : Z) : outcome Z := Ok (a + b).
(** The operator [+=] of utils_math.h:365, 376, 402. *)
Definition int_add (a b : Z) : outcome Z := if in_intb (a + b) then Ok (a + b) else UB.
(** On [unsigned int]. The operator [+=] of utils_math.h:365, 376, 402. *)
Definition uint_add (a b : Z) : outcome Z := Ok ((a + b) mod 4294967296).
(** The operator [+=] of utils_math.h:365, 376, 402. *)
Definition qadd (a b : Q) : outcome Q := Ok (a + b)%Q.

(** basic.h:249-256: FLT_MAX; MISSINGFLOAT is its negative, MAXIMUMFLOAT itself. *)
Definition FLT_MAX : Q := 340282346638528859811704183484516925440 # 1.
(** basic.h:249-256. *)
Definition MISSINGFLOAT : Q := (- FLT_MAX)%Q.
(** basic.h:249-256. *)
Definition MAXIMUMFLOAT : Q := FLT_MAX.

(** The operator [<] on doubles (utils_math.h:392-393). *)
Definition qltb (a b : Q) : bool := negb (Qle_bool b a).

(** [sum / count] for a count that may be zero; [None] is NaN.
    utils_math.h:398, 405, 443, 456. *)
Definition divn (s : Q) (n : Z) : option Q := if n =? 0 then None else Some (s / inject_Z n)%Q.

(** The six numbers stored. utils_math.h:397, 406-410. *)
Record stats := mkStats {
  s_num : Z; s_mean : option Q; s_max : Q; s_min : Q; s_std : option Q; s_range : Q }.

Section Stats.
(** FloatEqual (utils_math.h:140-143) and sqrt are parameters. *)
Variable feq : Q -> Q -> bool.
(** External: sqrt of the C library (utils_math.h:405, 456). *)
Variable sqrt : Q -> Q.

(** Accumulators of the first pass. utils_math.h:385-396, 424-437. *)
Definition acc0 : Q * Q * Z * Q := (MISSINGFLOAT, MAXIMUMFLOAT, 0, 0%Q).
(** utils_math.h:385-396, 424-437. *)
Definition acc_step (exclude : Q) (a : Q * Q * Z * Q) (v : Q) : Q * Q * Z * Q :=
  if feq v exclude then a
  else let '(maxv, minv, n, s) := a in
       (if qltb maxv v then v else maxv, if qltb v minv then v else minv, n + 1, (s + v)%Q).

(** What one iteration adds to the squared deviations (399-404, 447-452); with no
    mean (NaN) the loop body runs for no element. In utils_math.h:399-404, 447-452. *)
Definition dev_term (exclude : Q) (mean : option Q) (v : Q) : option Q :=
  if feq v exclude then None
  else match mean with Some m => Some ((v - m) * (v - m))%Q | None => None end.

(** utils_math.h:381-412 BasicStatistics, 1D. *)
Definition BasicStatistics (values : list Q) (num : Z) (exclude : Q) (t : team) : outcome stats :=
  let* a := forloop (range 0 num) (fun a i => let* v := aget values i in Ok (acc_step exclude a v)) acc0 in
  let '(maxv, minv, n, s) := a in
  let mean := divn s n in
  let* d := reduce qadd 0%Q (fun i => let* v := aget values (Z.of_nat i) in Ok (dev_term exclude mean v)) 0%Q t in
  Ok (mkStats n mean maxv minv (option_map sqrt (divn d n)) (maxv - minv)%Q).

(** Cell (i, j). utils_math.h:433. *)
Definition aget2 (values : list (list Q)) (i j : Z) : outcome Q := let* c := aget values i in aget c j.

(** utils_math.h:414-460 BasicStatistics, 2D: the accumulators of layer [j] are
    slot [j]; the reduction of layer [j] is carried out by [t j]. *)
Definition BasicStatistics2D (values : list (list Q)) (num lyrs : Z) (exclude : Q) (t : Z -> team)
  : outcome (list stats) :=
  let* accs :=
    forloop (range 0 num) (fun accs i =>
      forloop (range 0 lyrs) (fun accs j =>
        let* v := aget2 values i j in
        let* a := aget accs j in
        aset accs j (acc_step exclude a v)) accs) (repeat acc0 (Z.to_nat lyrs)) in
  forloop (range 0 lyrs) (fun out j =>
    let* a := aget accs j in
    let '(maxv, minv, n, s) := a in
    let mean := divn s n in
    let* d := reduce qadd 0%Q (fun i => let* v := aget2 values (Z.of_nat i) j in Ok (dev_term exclude mean v)) 0%Q (t j) in
    Ok (out ++ [mkStats n mean maxv minv (option_map sqrt (divn d n)) (maxv - minv)%Q])) [].
End Stats.
