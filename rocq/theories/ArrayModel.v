(** Array allocation and vector helpers (src/utils_array.h).

    Memory is a list of blocks; a freed block is [None]. A pointer into a block
    is the block number and an element offset; the null pointer is [None].
    Accesses to freed blocks, outside a block, or of the wrong kind (reading an
    uninitialised element, dereferencing a number) are [UB]; so is freeing
    anything but the start of a live block. *)
From Coq Require Import ZArith List Bool.
From Verif Require Import Base RasterModel.
Import ListNotations.
Open Scope Z_scope.
Open Scope outcome_scope.

Section Heap.
Context {T : Type}.

(** Memory behind the pointers of utils_array.h:331-475; see the head of this file. *)
Inductive cell := CUndef | CVal (x : T) | CPtr (b : nat) (off : Z).
(** Memory behind the pointers of utils_array.h:331-475; see the head of this file. *)
Definition heap := list (option (list cell)).
(** Memory behind the pointers of utils_array.h:331-475; see the head of this file. *)
Definition pointer := option (nat * Z).

(** [new(nothrow) X[n]]: [ok] tells whether the allocator has memory. A negative
    length makes the expression yield null. E.g. utils_array.h:342, 363, 387, 394. *)
Definition alloc (ok : bool) (h : heap) (n : Z) : heap * pointer :=
  if ok && (0 <=? n) then (h ++ [Some (repeat CUndef (Z.to_nat n))], Some (length h, 0)) else (h, None).

(** A block not freed; used for the accesses of utils_array.h:331-475. *)
Definition block (h : heap) (b : nat) : outcome (list cell) :=
  match nth_error h b with Some (Some c) => Ok c | _ => UB end.

(** [p[i]] as an rvalue. E.g. utils_array.h:375, 472. *)
Definition load (h : heap) (p : pointer) (i : Z) : outcome cell :=
  match p with
  | None => UB
  | Some (b, o) => let* c := block h b in aget c (o + i)
  end.

(** [p[i] = c]. E.g. utils_array.h:352, 408. *)
Definition store (h : heap) (p : pointer) (i : Z) (c : cell) : outcome heap :=
  match p with
  | None => UB
  | Some (b, o) => let* d := block h b in let* d' := aset d (o + i) c in Ok (upd h b (Some d'))
  end.

(** [delete[] p]. E.g. utils_array.h:462, 472, 473. *)
Definition free (h : heap) (p : pointer) : outcome heap :=
  match p with
  | None => Ok h
  | Some (b, o) => if o =? 0 then let* _ := block h b in Ok (upd h b None) else UB
  end.

(** An element that is a value, a row pointer (utils_array.h:375, 421, 472). *)
Definition load_val (h : heap) (p : pointer) (i : Z) : outcome T :=
  let* c := load h p i in match c with CVal x => Ok x | _ => UB end.
(** An element that is a value, a row pointer (utils_array.h:375, 421, 472). *)
Definition load_ptr (h : heap) (p : pointer) (i : Z) : outcome pointer :=
  let* c := load h p i in match c with CPtr b o => Ok (Some (b, o)) | _ => UB end.

(** [data[i][j]] and [data[i][j] = v]. utils_array.h:416, 421. *)
Definition read2 (h : heap) (data : pointer) (i j : Z) : outcome T :=
  let* p := load_ptr h data i in load_val h p j.
(** utils_array.h:421. *)
Definition write2 (h : heap) (data : pointer) (i j : Z) (v : T) : outcome heap :=
  let* p := load_ptr h data i in store h p j (CVal v).

(** Initialize1DArray(row, data, init_value) (utils_array.h:331-355). [v] is the
    converted initial value; [ord] is the order of the parallel loop. *)
Definition Initialize1DArray (ok : bool) (ord : list nat) (h : heap) (data : pointer) (row : Z) (v : T)
  : outcome (heap * pointer * bool) :=
  match data with
  | Some _ => Ok (h, data, false)
  | None =>
      if row <=? 0 then Ok (h, None, false)
      else match alloc ok h row with
           | (h1, None) => Ok (h1, None, false)
           | (h1, p) => let* h2 := ofold (fun h i => store h p (Z.of_nat i) (CVal v)) ord h1 in Ok (h2, p, true)
           end
  end.

(** Initialize1DArray(row, data, init_data) (utils_array.h:358-378). [cast] is
    the element conversion. *)
Definition Initialize1DArrayFrom (cast : T -> T) (ok : bool) (ord : list nat) (h : heap) (data : pointer)
  (row : Z) (init : pointer) : outcome (heap * pointer * bool) :=
  match data with
  | Some _ => Ok (h, data, false)
  | None =>
      match alloc ok h row with
      | (h1, None) => Ok (h1, None, false)
      | (h1, p) =>
          match init with
          | None => Ok (h1, p, false)
          | Some _ =>
              let* h2 := ofold (fun h i => let* x := load_val h init (Z.of_nat i) in
                                           store h p (Z.of_nat i) (CVal (cast x))) ord h1 in
              Ok (h2, p, true)
          end
      end
  end.

(** Initialize2DArray(row, col, data, init_value) (utils_array.h:381-411).
    [ok1], [ok2]: outcome of the two allocations. [row * col] is exact. *)
Definition Initialize2DArray (ok1 ok2 : bool) (ord : list nat) (h : heap) (data : pointer) (row col : Z) (v : T)
  : outcome (heap * pointer * bool) :=
  match data with
  | Some _ => Ok (h, data, false)
  | None =>
      match alloc ok1 h row with
      | (h1, None) => Ok (h1, None, false)
      | (h1, p) =>
          match alloc ok2 h1 (row * col) with
          | (h2, None) => Ok (h2, p, false)
          | (h2, Some (pool, _)) =>
              let* h3 := ofold (fun h i => store h (Some (pool, 0)) (Z.of_nat i) (CVal v)) ord h2 in
              let* h4 := ofold (fun h i => store h p i (CPtr pool (i * col))) (zseq row) h3 in
              Ok (h4, p, true)
          end
      end
  end.

(** Initialize2DArray(row, col, data, init_data) (utils_array.h:413-425). The
    parallel loop runs over rows. *)
Definition Initialize2DArrayFrom (cast : T -> T) (ok1 ok2 : bool) (ord1 ord2 : list nat) (h : heap) (data : pointer)
  (row col : Z) (init : pointer) : outcome (heap * pointer * bool) :=
  let* v0 := read2 h init 0 0 in
  let* r := Initialize2DArray ok1 ok2 ord1 h data row col (cast v0) in
  let '(h1, p, flag) := r in
  if negb flag then Ok (h1, p, false)
  else
    let* h2 := ofold (fun h i =>
                 ofold (fun h j => let* x := read2 h init (Z.of_nat i) j in write2 h p (Z.of_nat i) j (cast x))
                       (zseq col) h) ord2 h1 in
    Ok (h2, p, true).

(** One step of the column-counting loop of the irregular Initialize2DArray
    (utils_array.h:438-446); [toint] is CVT_INT. State: next index, column
    counts so far, maximum so far. *)
Definition count_cols (toint : T -> option Z) (h : heap) (init : pointer) (s : Z * list Z * Z) (_ : Z)
  : outcome (Z * list Z * Z) :=
  let '(idx, cols, mx) := s in
  let* x := load_val h init idx in
  match toint x with
  | None => UB
  | Some c => Ok (idx + c + 1, cols ++ [c], if c >? mx then c else mx)
  end.

(** Irregular Initialize2DArray(init_data, rows, max_cols, data)
    (utils_array.h:428-457). Result: heap, data, flag, rows, max_cols. The
    scratch array [cols] of the function is a local list here; its allocation
    with a negative length throws. The old value of [data] is ignored. *)
Definition InitializeJagged (toint : T -> option Z) (cast : T -> T) (ok1 ok2 : bool) (ord : list nat) (h : heap)
  (init : pointer) : outcome (heap * pointer * bool * Z * Z) :=
  let* x := load_val h init 0 in
  match toint x with
  | None => UB
  | Some rows =>
      match alloc ok1 h rows with
      | (h1, None) => Ok (h1, None, false, rows, 0)
      | (h1, p) =>
          let* s := ofold (count_cols toint h1 init) (zseq rows) (1, [], -1) in
          let '(idx, cols, mx) := s in
          let* r := Initialize1DArrayFrom cast ok2 ord h1 None (idx - 1)
                      (match init with Some (b, o) => Some (b, o + 1) | None => None end) in
          let '(h2, pool, _) := r in
          match pool with
          | None => UB (* data[i] = nullptr + pos *)
          | Some (pb, _) =>
              let* s2 := ofold (fun (s : heap * Z) i =>
                           let* h' := store (fst s) p i (CPtr pb (snd s)) in
                           let* c := aget cols i in Ok (h', snd s + c + 1)) (zseq rows) (h2, 0) in
              Ok (fst s2, p, true, rows, mx)
          end
      end
  end.

(** Release1DArray (utils_array.h:459-465). *)
Definition Release1DArray (h : heap) (data : pointer) : outcome (heap * pointer) :=
  match data with None => Ok (h, None) | _ => let* h' := free h data in Ok (h', None) end.

(** Release2DArray (utils_array.h:467-475). *)
Definition Release2DArray (h : heap) (data : pointer) : outcome (heap * pointer) :=
  match data with
  | None => Ok (h, None)
  | _ =>
      let* p := load_ptr h data 0 in
      let* h1 := free h p in
      let* h2 := free h1 data in
      Ok (h2, None)
  end.

(** ValueInVector (utils_array.h:503-512); [eqb] is the element's [==]. *)
Definition ValueInVector (eqb : T -> T -> bool) (v : T) (l : list T) : bool :=
  match l with [] => false | _ => existsb (fun x => eqb x v) l end.

(** RemoveValueInVector (utils_array.h:514-523): the erasing loop; [done] is the
    part before the iterator. *)
Fixpoint remove_loop (eqb : T -> T -> bool) (v : T) (done rest : list T) : list T :=
  match rest with
  | [] => done
  | x :: t => if eqb x v then remove_loop eqb v done t else remove_loop eqb v (done ++ [x]) t
  end.
(** utils_array.h:515-523. *)
Definition RemoveValueInVector (eqb : T -> T -> bool) (v : T) (l : list T) : list T := remove_loop eqb v [] l.
End Heap.
Arguments cell T : clear implicits.
Arguments heap T : clear implicits.
