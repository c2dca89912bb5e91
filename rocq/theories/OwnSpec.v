(** Vocabulary for statements about memory (C55, C56): what rasters hold, and which
    calls are made with care. *)
From Coq Require Import List Bool Arith.
From Verif Require Import Base OwnModel.
Import ListNotations.

(** The array behind a pointer, with its length. *)
Definition held (p : option nat) (n : nat) : list (nat * nat) := match p with Some b => [(b, n)] | None => [] end.

(** What a subset, a map of statistics and a raster hold; borrowed positions are not
    held. *)
Definition held_sub (u : sub) : list (nat * nat) :=
  (if u_alloc u then held (u_lpos u) (u_n u) ++ held (u_lidx u) (u_n u) ++ held (u_global u) (u_n u) else [])
    ++ held (u_data u) (u_n u) ++ held (u_data2 u) (u_n u).
Definition held_stats (st : option (list (option nat))) (n : nat) : list (nat * nat) :=
  match st with Some l => flat_map (fun p => held p n) l | None => [] end.
Definition held_obj (o : obj) : list (nat * nat) :=
  held (d1 o) (ncells o) ++ held (d2 o) (ncells o)
    ++ (if store o then held (pos o) (ncells o) ++ held (idx o) (ncells o) else [])
    ++ held_stats (stats o) (nlyrs o) ++ flat_map held_sub (subs o).
Definition held_all (w : world) : list (nat * nat) := flat_map (fun x => held_obj (snd x)) (w_objs w).

(** ** Calls made with care *)
Definition alive (w : world) (i : nat) (f : obj -> Prop) : Prop := exists o, objof (w_objs w) i = Some o /\ f o.
Definition nobodys_mask (w : world) (i : nat) : Prop := forall k o, objof (w_objs w) k = Some o -> omask o <> Some i.
(** The positions are the raster's own, or there are none. *)
Definition own_positions (o : obj) : Prop := store o = true \/ (pos o = None /\ idx o = None).
(** Cells can be looked up: through positions in use, or because every cell of the
    grid is stored. *)
Definition readable (o : obj) : Prop := (calc o = true /\ pos o <> None /\ idx o <> None) \/ ncells o = grid o.
Definition copyable (o : obj) : Prop := valid o = true /\ (calc o = true -> pos o <> None /\ idx o <> None).
(** No subset of the mask has values when subsets are made anew. *)
Definition lie_ok (l : lie) (e : bool) (m : obj) : Prop :=
  (1 <= l_cells l)%nat /\ (1 <= l_grid l)%nat /\ (1 <= l_valid l)%nat
  /\ (l_exact l = false -> l_within l = false -> e = false ->
      forall u, In u (subs m) -> u_data u = None /\ u_data2 u = None).

Definition careful (w : world) (c : call) : Prop :=
  match c with
  | New n => (1 <= n)%nat
  | New2 n l => (1 <= n)%nat /\ (1 <= l)%nat
  | Use i => alive w i readable
  | Calc i k => alive w i (fun o => omask o = None) /\ (1 <= k)%nat
  | Build i k ns | Rebuild i k ns =>
      alive w i (fun o => omask o = None \/ (pos o <> None /\ idx o <> None)) /\ (1 <= k)%nat /\ Forall (fun n => 1 <= n)%nat ns
  | Forget i => alive w i (fun _ => True)
  | Fill i s | Fill2 i s => alive w i (fun o => (s < length (subs o))%nat)
  | Stats i | Update i => alive w i (fun o => valid o = true)
  | CopyNew j => alive w j copyable
  | CopyTo i j =>
      i <> j /\ alive w i (fun o => own_positions o /\
        alive w j (fun s => copyable s /\ (is2d o = true -> is2d s = true)
                            /\ (scalc s = true -> is2d s = true -> scalc o = false /\ stats o <> None)))
      /\ nobodys_mask w i
  | ReadMasked two n lyrs j c e l =>
      (1 <= n)%nat /\ (1 <= lyrs)%nat /\ alive w j (fun m => omask m = None /\ valid m = true /\ lie_ok l e m)
  | CalcMasked i l =>
      alive w i (fun o => own_positions o /\ ncells o = grid o /\
        exists j, omask o = Some j /\ alive w j (fun m => valid m = true /\ lie_ok l (ext o) m))
  | MaskAgain i l =>
      alive w i (fun o => own_positions o /\ readable o /\
        exists j, omask o = Some j /\ alive w j (fun m => valid m = true /\ lie_ok l true m))
  | WithMask two j k n lyrs =>
      alive w j (fun m => omask m = None /\ valid m = true) /\ (1 <= k)%nat /\ (1 <= lyrs)%nat
  | Give _ _ => False
  | Delete i => alive w i (fun _ => True) /\ nobodys_mask w i
  end.

(** A program all of whose calls are made with care. *)
Fixpoint careful_run (w : world) (cs : list call) : Prop :=
  match cs with [] => True | c :: t => careful w c /\ forall w', step w c = Ok w' -> careful_run w' t end.

(** ** Programs without masks *)
(** What such calls must observe: rasters exist, sizes are not zero, some cell is
    valid, no raster is copied onto itself or a single layer onto layers, and
    statistics have not been asked of both rasters of a copy. *)
Definition plain (w : world) (c : call) : Prop :=
  match c with
  | New n => (1 <= n)%nat
  | New2 n l => (1 <= n)%nat /\ (1 <= l)%nat
  | Use i | Forget i | Stats i | Update i | CopyNew i | Delete i => alive w i (fun _ => True)
  | Calc i k => alive w i (fun _ => True) /\ (1 <= k)%nat
  | Build i k ns | Rebuild i k ns => alive w i (fun _ => True) /\ (1 <= k)%nat /\ Forall (fun n => 1 <= n)%nat ns
  | Fill i s | Fill2 i s => alive w i (fun o => (s < length (subs o))%nat)
  | CopyTo i j =>
      i <> j /\ alive w i (fun o => alive w j (fun s =>
        (is2d o = true -> is2d s = true) /\ (scalc s = true -> is2d s = true -> scalc o = false /\ stats o <> None)))
  | _ => False
  end.
Fixpoint plain_run (w : world) (cs : list call) : Prop :=
  match cs with [] => True | c :: t => plain w c /\ forall w', step w c = Ok w' -> plain_run w' t end.

(** States that programs get to. *)
Definition reached (w : world) : Prop := exists cs, careful_run nothing cs /\ run nothing cs = Ok w.
Definition reached_plain (w : world) : Prop := exists cs, plain_run nothing cs /\ run nothing cs = Ok w.
(** An array is gone. *)
Definition gone (w : world) (b : nat) : Prop := ~ In b (map fst (h_live (w_heap w))).
