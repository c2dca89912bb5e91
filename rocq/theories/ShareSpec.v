(** Vocabulary for one raster object used by several threads. *)
From Coq Require Import ZArith List Bool.
From Verif Require Import Base RasterModel RasterSpec ParModel ParSpec ShareModel.
Import ListNotations.
Open Scope Z_scope.

Section Spec.
Context {T D : Type}.
Implicit Types (r : raster T) (m : mem T D) (c : client T D).

Definition flag (b : bool) : word T D := WI (if b then 1 else 0).
(** The memory holds this raster object. *)
Definition holds m r : Prop :=
  m F_2d = Some (flag (r_is2d r)) /\ m F_data = Some (flag (negb (isnull (r_data r)))) /\ m F_data2 = Some (flag (negb (isnull (r_data2d r)))) /\
  m F_rows = Some (WI (r_rows r)) /\ m F_cols = Some (WI (r_cols r)) /\ m F_lyrs = Some (WI (r_nlyrs r)) /\ m F_cells = Some (WI (r_ncells r)) /\
  m F_calc = Some (flag (r_calc r)) /\ m F_pos = Some (flag (negb (isnull (r_pos r)))) /\ m F_posidx = Some (flag (negb (isnull (r_posidx r)))) /\
  m F_nodata = Some (WT (r_nodata r)) /\
  (forall ix i z, r_posidx r = Some ix -> aget ix i = Ok z -> m (A_posidx, i, 0) = Some (WI z)) /\
  shows m r.

(** The calls one after the other, as in RasterModel.v: the object afterwards, the answers. *)
Definition call_seq r (c : call T) : outcome (raster T * answer T D) :=
  match c with
  | CValue row col lyr => let* x := GetValue r row col lyr in Ok (r, AVal x)
  | CIndex i lyr => let* x := GetValueByIndex r i lyr in Ok (r, AVal x)
  | CPos row col => let* i := GetPosition r row col in Ok (r, APos i)
  | CSet row col v lyr => let* r' := SetValue r row col v lyr in Ok (r', ADone)
  end.
Fixpoint client_seq r c : outcome (raster T * list (answer T D)) :=
  match c with
  | CEnd => Ok (r, [])
  | CCall c k => let* ra := call_seq r c in let* rl := client_seq (fst ra) (k (snd ra)) in Ok (fst rl, snd ra :: snd rl)
  end.
(** The clients of these numbers, one after the other. *)
Fixpoint in_turn (cl : Z -> client T D) (ord : list Z) r : outcome (raster T * list (answer T D)) :=
  match ord with
  | [] => Ok (r, [])
  | i :: ord => let* ra := client_seq r (cl i) in let* rl := in_turn cl ord (fst ra) in Ok (fst rl, snd ra ++ snd rl)
  end.

(** [own row col]: the number of the client that may set this cell, negative for none. A
    client sets its own cells, and reads its own cells and those nobody sets. *)
Definition may_call r (own : Z -> Z -> Z) (i : Z) (c : call T) : Prop :=
  match c with
  | CValue row col _ => own row col = i \/ own row col < 0
  | CIndex j _ => forall row col, inside r row col -> GetPosition r row col = Ok j -> own row col = i \/ own row col < 0
  | CPos _ _ => True
  | CSet row col _ _ => own row col = i
  end.
Fixpoint may r (own : Z -> Z -> Z) (i : Z) c : Prop := match c with CEnd => True | CCall c k => may_call r own i c /\ forall a, may r own i (k a) end.
End Spec.
