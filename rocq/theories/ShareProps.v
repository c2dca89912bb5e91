(** C150: one raster object used by several threads. *)
From Coq Require Import ZArith QArith List Bool Lia Permutation.
From Verif Require Import Base RasterModel RasterSpec ListLib ParModel ParSpec ShareModel ShareSpec ShareProofs2 ShareProofs3 ShareProofs4.
Import ListNotations.
Open Scope Z_scope.

(** ** C150. Reading any cells that nobody sets, and setting cells of one's own, is free of
    races; every client gets the answers it gets alone, and the object ends up as if they
    had worked one after the other, in any order. *)
Theorem C150_share : forall (T D : Type) n (cl : Z -> client T D) (own : Z -> Z -> Z) (r : raster T) (m0 : mem T D),
  full_grid r \/ (exists ix, RasterSpec.compact r ix) -> holds m0 r -> (forall i, 0 <= i < n -> may r own i (cl i)) ->
  exists m1 answers, parallel_for n (fun i => clientP (cl i)) m0 m1 answers /\
    (forall i, 0 <= i < n -> exists r', client_seq r (cl i) = Ok (r', answers i)) /\
    (forall ord, Permutation ord (zseq n) -> exists r', in_turn cl ord r = Ok (r', concat (map answers ord)) /\ holds m1 r').
Proof. intros T D n cl own r m0. exact (share n cl own r m0). Qed.
Print Assumptions C150_share.

(** Setting a cell that another thread sets or reads is a race, for every cell with storage. *)
Theorem C150_cell_refuted : forall (T D : Type) (r : raster T) (m0 : mem T D) row col lyr v c,
  full_grid r \/ (exists ix, RasterSpec.compact r ix) -> holds m0 r -> stored r row col -> layer_ok r lyr ->
  (c = CValue row col lyr \/ exists w, c = CSet row col w lyr) ->
  exists tr m ps, exec m0 (start (fun i => clientP (CCall (if i =? 0 then CSet row col v lyr else c) (fun _ : answer T D => CEnd))) [[0]; [1]]) tr m ps /\ finished ps /\ race tr.
Proof. intros T D r m0 row col lyr v c. exact (race_set r m0 row col lyr v c). Qed.
Print Assumptions C150_cell_refuted.

(** Statistics that have been calculated can be read by any number of threads. *)
Theorem C150_stats : forall (T D : Type) (is_none : D -> bool) (six : list T -> Z -> D) n s (m0 : mem T D) d,
  m0 F_stats = Some (WI 1) -> m0 (A_stats, s, 0) = Some (WD d) ->
  parallel_for n (fun _ => GetStatisticsP is_none six s (fun d => Add (AStat d) Done)) m0 m0 (fun _ => [AStat d]).
Proof. intros T D is_none six n s m0 d. exact (stats_par is_none six n s m0 d). Qed.
Print Assumptions C150_stats.

(** Not so for statistics that have not: the first calls calculate them, which is a race,
    for every raster of one layer and every statistic. *)
Theorem C150_stats_refuted : forall (T D : Type) (is_none : D -> bool) (six : list T -> Z -> D) n s (m0 : mem T D) f g,
  0 <= s < 6 -> m0 F_stats = Some (WI 0) -> m0 F_cells = Some (WI n) -> holds1 m0 A_raster n (fun i => WT (f i)) -> holds1 m0 A_stats 6 (fun j => WD (g j)) ->
  exists tr m ps, exec m0 (start (fun _ => GetStatisticsP is_none six s (fun d => Add (AStat d) Done)) [[0]; [1]]) tr m ps /\ finished ps /\ race tr.
Proof. intros T D is_none six n s m0 f g. exact (stats_race is_none six n s m0 f g). Qed.
Print Assumptions C150_stats_refuted.

(** One call before the threads start calculates them all: it gives the statistic of the
    cells, and leaves what [C150_stats] asks for. *)
Theorem C150_stats_first : forall (T D : Type) (is_none : D -> bool) (six : list T -> Z -> D) n s (m0 : mem T D) f g,
  0 <= s < 6 -> m0 F_stats = Some (WI 0) -> m0 F_cells = Some (WI n) -> holds1 m0 A_raster n (fun i => WT (f i)) -> holds1 m0 A_stats 6 (fun j => WD (g j)) ->
  exists m1, parallel_for 1 (fun _ => GetStatisticsP is_none six s (fun d => Add (AStat d) Done)) m0 m1 (fun _ => [AStat (six (map f (zseq n)) s)]) /\
    m1 F_stats = Some (WI 1) /\ holds1 m1 A_stats 6 (fun j => WD (six (map f (zseq n)) j)) /\
    (forall l, fst (fst l) <> A_stats -> l <> F_stats -> m1 l = m0 l).
Proof. intros T D is_none six n s m0 f g. exact (stats_first is_none six n s m0 f g). Qed.
Print Assumptions C150_stats_first.

(** Every object can be in memory. *)
Definition memory_of {T} (r : raster T) : mem T Z := fun l =>
  match l with
  | (A_field, k, 0) => nth_error [flag (r_is2d r); flag (negb (isnull (r_data r))); flag (negb (isnull (r_data2d r))); WI (r_rows r); WI (r_cols r); WI (r_nlyrs r); WI (r_ncells r);
      flag (r_calc r); flag (negb (isnull (r_pos r))); flag (negb (isnull (r_posidx r))); WT (r_nodata r); WI 0] (Z.to_nat k)
  | (A_posidx, i, 0) => match r_posidx r with Some ix => match aget ix i with Ok z => Some (WI z) | _ => None end | None => None end
  | (A_raster, i, 0) => match r_data r with Some d => match aget d i with Ok x => Some (WT x) | _ => None end | None => None end
  | (A_raster2, i, j) => match r_data2d r with Some d => match aget d i with Ok row => match aget row j with Ok x => Some (WT x) | _ => None end | _ => None end | None => None end
  | (A_stats, j, 0) => if (0 <=? j) && (j <? 6) then Some (WD (-9999)) else None
  | _ => None
  end.
Theorem C150_memory : forall (T : Type) (r : raster T), holds (memory_of r) r.
Proof.
  intros T r. unfold holds. repeat (split; [reflexivity|]). split.
  - intros ix i z E A. cbn. rewrite E, A. reflexivity.
  - unfold shows. destruct (r_is2d r).
    + intros d i row lyr x E A B. cbn. rewrite E, A, B. reflexivity.
    + intros d i x E A. cbn. rewrite E, A. reflexivity.
Qed.
Print Assumptions C150_memory.

(** A grid of two rows and two columns; client 0 adds up the first row into its first cell,
    client 1 the second. *)
Definition two_by_two : raster Z := FromArray (Some [5; 6; 7; 8]) 2 2 (-9999) 0 (1#1)%Q (0#1)%Q (0#1)%Q.
Definition add_up (i : Z) : client Z Z :=
  CCall (CValue i 0 1) (fun a => CCall (CValue i 1 1) (fun b =>
    match a, b with AVal x, AVal y => CCall (CSet i 0 (x + y) 1) (fun _ => CEnd) | _, _ => CEnd end)).
Definition first_column (row col : Z) : Z := if col =? 0 then row else -1.
Example C150_ex : full_grid two_by_two /\ (forall i, 0 <= i < 2 -> may two_by_two first_column i (add_up i)) /\
  exists r', in_turn add_up [1; 0] two_by_two = Ok (r', [AVal 7; AVal 8; ADone; AVal 5; AVal 6; ADone]) /\ r_data r' = Some [11; 6; 15; 8].
Proof.
  split; [|split].
  - unfold full_grid, storage. cbn. repeat split; try lia. exists [5; 6; 7; 8]. split; reflexivity.
  - intros i B. cbn. split; [left; reflexivity|]. intros a. split; [right; reflexivity|]. intros b. destruct a; try exact I. destruct b; try exact I. cbn. split; [reflexivity|]. intros _. exact I.
  - eexists. split; [vm_compute; reflexivity|reflexivity].
Qed.
(** The statistics of this object: all hypotheses of the last two theorems. *)
Example C150_stats_ex : memory_of two_by_two F_stats = Some (WI 0) /\ memory_of two_by_two F_cells = Some (WI 4) /\
  holds1 (memory_of two_by_two) A_raster 4 (fun i => WT (i + 5)) /\ holds1 (memory_of two_by_two) A_stats 6 (fun _ => WD (-9999)).
Proof.
  split; [reflexivity|]. split; [reflexivity|]. split; intros i B.
  - assert (C : i = 0 \/ i = 1 \/ i = 2 \/ i = 3) by lia. destruct C as [->|[->|[->| ->]]]; reflexivity.
  - assert (C : i = 0 \/ i = 1 \/ i = 2 \/ i = 3 \/ i = 4 \/ i = 5) by lia. destruct C as [->|[->|[->|[->|[->| ->]]]]]; reflexivity.
Qed.
