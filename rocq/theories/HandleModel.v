(** The objects of the MongoDB driver that src/db_mongoc.cpp obtains, uses and
    destroys, and those of the GridFS functions of src/data_raster.hpp. Proof-free.

    A state is the set of live objects, each with its kind, and the phase of the
    driver. Contents are not represented; what the driver answers is an argument.
    The contract of the driver, as its manual states it: using an object that is not
    live, and NULL, is undefined; destroying NULL does nothing, destroying another
    object that is not live is undefined; no function of the driver may be called
    before mongoc_init or after mongoc_cleanup (functions on bson documents may);
    bson_destroy of a heap document on which bson_init was called keeps its memory,
    since bson_init marks the document as not from the heap. Memory of malloc that
    is given to delete[] is taken to be freed, as with GCC. *)
From Coq Require Import List Bool Arith.
From Verif Require Import Base BasicModel.
Import ListNotations.
Open Scope outcome_scope.

(** Types of objects in db_mongoc.cpp:47-471. *)
Inductive kind := KUri | KClient | KDatabase | KCollection | KGridfs | KFile | KList | KStream | KCursor | KNames | KBson | KBuffer.

(** Of db_mongoc.cpp:47-471, see above. *)
Definition code (k : kind) : nat :=
  match k with
  | KUri => 0 | KClient => 1 | KDatabase => 2 | KCollection => 3 | KGridfs => 4 | KFile => 5
  | KList => 6 | KStream => 7 | KCursor => 8 | KNames => 9 | KBson => 10 | KBuffer => 11
  end.

(** mongoc_init and mongoc_cleanup, db_mongoc.cpp:84, 110. *)
Inductive phase := Before | Running | After.

(** The driver behind db_mongoc.cpp:47-471. *)
Record driver := mkDriver { d_next : nat; d_live : list (nat * kind); d_phase : phase }.

(** Computations that work on the driver. No counterpart in db_mongoc.cpp:47-471. *)
Definition D (A : Type) := driver -> outcome (A * driver).
(** No counterpart in db_mongoc.cpp:47-471. *)
Definition ret {A} (a : A) : D A := fun d => Ok (a, d).
(** No counterpart in db_mongoc.cpp:47-471. *)
Definition bind {A B} (m : D A) (k : A -> D B) : D B := fun d => let* x := m d in k (fst x) (snd x).
Declare Scope driver_scope.
Notation "'let!' x ':=' m 'in' k" := (bind m (fun x => k))
  (at level 200, x pattern, m at level 100, k at level 200, right associativity) : driver_scope.
Open Scope driver_scope.

(** Is the object live? Behind e.g. db_mongoc.cpp:329. *)
Fixpoint is_live (l : list (nat * kind)) (b : nat) (k : kind) : bool :=
  match l with [] => false | (c, j) :: t => (Nat.eqb b c && Nat.eqb (code k) (code j)) || is_live t b k end.
(** Behind e.g. db_mongoc.cpp:329. *)
Fixpoint drop (l : list (nat * kind)) (b : nat) : list (nat * kind) :=
  match l with [] => [] | (c, j) :: t => if Nat.eqb b c then t else (c, j) :: drop t b end.

(** A function of the driver is called, e.g. db_mongoc.cpp:86. *)
Definition call : D unit := fun d => match d_phase d with Running => Ok (tt, d) | _ => UB end.
(** An object comes to life, e.g. db_mongoc.cpp:50. *)
Definition make (k : kind) : D (option nat) := fun d =>
  Ok (Some (d_next d), mkDriver (S (d_next d)) ((d_next d, k) :: d_live d) (d_phase d)).
(** An object is used, e.g. db_mongoc.cpp:156. *)
Definition use (k : kind) (p : option nat) : D unit := fun d =>
  match p with Some b => if is_live (d_live d) b k then Ok (tt, d) else UB | None => UB end.
(** An object is destroyed, e.g. db_mongoc.cpp:161. *)
Definition kill (k : kind) (p : option nat) : D unit := fun d =>
  match p with
  | Some b => if is_live (d_live d) b k then Ok (tt, mkDriver (d_next d) (drop (d_live d) b) (d_phase d)) else UB
  | None => Ok (tt, d)
  end.

(** A failing assertion, db_mongoc.cpp:48. *)
Definition throw {A} : D A := fun _ => Throw.

(** db_mongoc.cpp:47-54, the constructor with host and port. *)
Definition NewClient (host : bytes) : D (option nat) :=
  if negb (IsIpAddress host) then throw
  else
    let! _ := call in
    let! uri := make KUri in
    let! conn := make KClient in
    let! _ := kill KUri uri in
    ret conn.

(** db_mongoc.cpp:78-97 MongoClient::Init: the connection of the new object, or
    none for nullptr. [ok]: the driver makes a client of this address; the same
    address gives the same answer twice. *)
Definition InitClient (host : bytes) (ok : bool) : D (option (option nat)) :=
  let! _ := (fun d => Ok (tt, mkDriver (d_next d) (d_live d) (match d_phase d with Before => Running | x => x end))) in
  let! _ := call in
  let! uri := make KUri in
  let! conn := (if ok then make KClient else ret None) in
  match conn with
  | None => let! _ := kill KUri uri in let! _ := kill KClient conn in ret None
  | Some _ =>
      let! _ := kill KUri uri in
      let! _ := kill KClient conn in
      let! c := NewClient host in ret (Some c)
  end.

(** db_mongoc.cpp:103-111 MongoClient::Destroy. [conn_] keeps its value. *)
Definition Destroy (conn : option nat) : D unit :=
  let! _ := (match conn with Some _ => let! _ := call in kill KClient conn | None => ret tt end) in
  let! _ := call in
  fun d => Ok (tt, mkDriver (d_next d) (d_live d) After).

(** db_mongoc.cpp:116-136 GetDatabaseNames; the list may not come. *)
Definition GetDatabaseNames (ok : bool) (conn : option nat) : D unit :=
  let! _ := call in
  let! _ := use KClient conn in
  if ok then let! p := make KNames in kill KNames p else ret tt.

(** db_mongoc.cpp:146-151 GetDatabase. *)
Definition GetDatabase (conn : option nat) : D (option nat) :=
  let! _ := call in let! _ := use KClient conn in make KDatabase.

(** db_mongoc.cpp:153-165 GetCollection. [has]: the collection exists. *)
Definition GetCollection (has : bool) (conn : option nat) : D (option nat) :=
  let! db := GetDatabase conn in
  let! _ := use KDatabase db in
  if negb has then ret None
  else
    let! _ := kill KDatabase db in
    let! _ := use KClient conn in
    make KCollection.

(** db_mongoc.cpp:167-181 GetGridFs. [a1], [a2]: answers to the two attempts. *)
Definition GetGridFs (a1 a2 : bool) (conn : option nat) : D (option nat) :=
  let! _ := call in
  let! _ := use KClient conn in
  if a1 then make KGridfs
  else
    let! db := make KDatabase in
    let! _ := use KClient conn in
    let! g := (if a2 then make KGridfs else ret None) in
    let! _ := kill KDatabase db in
    ret g.

(** db_mongoc.cpp:208-210 ~MongoDatabase. *)
Definition DeleteDatabase (db : option nat) : D unit := let! _ := call in kill KDatabase db.

(** db_mongoc.cpp:200-202: the constructor asks for the name. *)
Definition WrapDatabase (db : option nat) : D unit := let! _ := call in use KDatabase db.

(** db_mongoc.cpp:215-264 MongoDatabase::GetCollectionNames; the list may not come. *)
Definition DbCollectionNames (ok : bool) (db : option nat) : D unit :=
  let! _ := call in
  let! _ := use KDatabase db in
  if ok then let! p := make KNames in kill KNames p else ret tt.

(** db_mongoc.cpp:142-144 MongoClient::GetCollectionNames. *)
Definition ClientCollectionNames (ok : bool) (conn : option nat) : D unit :=
  let! db := GetDatabase conn in
  let! _ := WrapDatabase db in
  let! _ := DbCollectionNames ok db in
  DeleteDatabase db.

(** db_mongoc.cpp:271-273 ~MongoCollection. *)
Definition DeleteCollection (c : option nat) : D unit := let! _ := call in kill KCollection c.

(** db_mongoc.cpp:275-279 ExecuteQuery. *)
Definition ExecuteQuery (c : option nat) : D (option nat) :=
  let! _ := call in let! _ := use KCollection c in make KCursor.

(** db_mongoc.cpp:281-295 QueryRecordsCount. *)
Definition QueryRecordsCount (c : option nat) : D unit :=
  let! q := make KBson in
  let! _ := call in
  use KCollection c.

(** db_mongoc.cpp:304-306 ~MongoGridFs. *)
Definition DeleteGridfs (g : option nat) : D unit :=
  match g with Some _ => let! _ := call in kill KGridfs g | None => ret tt end.

(** db_mongoc.cpp:310 and alike: the bucket of the object goes before the argument. *)
Definition bucket (own arg : option nat) : option nat := match own with Some _ => own | None => arg end.

(** Trying up to [n] times, db_mongoc.cpp:320-328: [k] attempts fail. *)
Fixpoint attempts (n k : nat) (g : option nat) : D (option nat) :=
  match n with
  | O => ret None
  | S n' =>
      let! _ := call in
      let! _ := use KGridfs g in
      match k with O => make KFile | S k' => attempts n' k' g end
  end.

(** db_mongoc.cpp:308-334 GetFile. [k]: number of attempts that fail. *)
Definition GetFile (k : nat) (own arg : option nat) : D (option nat) :=
  let g := bucket own arg in
  match g with
  | None => ret None
  | Some _ =>
      let! filter := make KBson in
      let! f := attempts 5 k g in
      let! _ := kill KBson filter in
      ret f
  end.

(** One after the other, [n] times: a loop such as db_mongoc.cpp:354-365. *)
Fixpoint times (n : nat) (m : D unit) : D unit :=
  match n with O => ret tt | S n' => let! _ := m in times n' m end.

(** db_mongoc.cpp:336-370 RemoveFile; the list has [n] files. *)
Definition RemoveFile (n : nat) (own arg : option nat) : D bool :=
  let g := bucket own arg in
  match g with
  | None => ret false
  | Some _ =>
      let! filter := make KBson in
      let! _ := call in
      let! _ := use KGridfs g in
      let! l := make KList in
      let! _ := times n (let! _ := use KList l in let! f := make KFile in let! _ := use KFile f in kill KFile f) in
      let! _ := use KList l in
      let! _ := kill KList l in
      let! _ := kill KBson filter in
      ret true
  end.

(** db_mongoc.cpp:372-389 GetFileNames; the list has [n] files. The last
    bson_destroy leaves the document, see above. *)
Definition GetFileNames (n : nat) (own arg : option nat) : D unit :=
  let g := bucket own arg in
  let! query := make KBson in
  let! _ := call in
  let! _ := use KGridfs g in
  let! l := make KList in
  let! _ := times n (let! _ := use KList l in let! f := make KFile in let! _ := use KFile f in kill KFile f) in
  let! _ := use KList l in
  let! _ := kill KList l in
  use KBson query.

(** db_mongoc.cpp:192-195 MongoClient::GetGridFsFileNames. *)
Definition ClientFileNames (a1 a2 : bool) (n : nat) (conn : option nat) : D unit :=
  let! g := GetGridFs a1 a2 conn in
  let! _ := GetFileNames n g None in
  DeleteGridfs g.

(** db_mongoc.cpp:391-409 GetFileMetadata. *)
Definition GetFileMetadata (k : nat) (own arg : option nat) : D (option nat) :=
  let g := bucket own arg in
  match g with
  | None => ret None
  | Some _ =>
      let! f := GetFile k own g in
      match f with
      | None => ret None
      | Some _ =>
          let! _ := use KFile f in
          let! m := make KBson in
          let! _ := kill KFile f in
          ret m
      end
  end.

(** db_mongoc.cpp:411-440 GetStreamData: the flag, the buffer. [ok]: the reading
    succeeds. *)
Definition GetStreamData (k : nat) (ok : bool) (own arg : option nat) : D (bool * option nat) :=
  let g := bucket own arg in
  match g with
  | None => ret (false, None)
  | Some _ =>
      let! f := GetFile k own g in
      match f with
      | None => ret (false, None)
      | Some _ =>
          let! _ := use KFile f in
          let! b := make KBuffer in
          let! s := make KStream in
          let! _ := use KStream s in
          let! _ := kill KStream s in
          let! _ := kill KFile f in
          ret (ok, b)
      end
  end.

(** db_mongoc.cpp:442-471 WriteStreamData, with a live document as metadata. [ok]:
    the file is saved. *)
Definition WriteStreamData (ok : bool) (meta own arg : option nat) : D bool :=
  let g := bucket own arg in
  match g with
  | None => ret false
  | Some _ =>
      let! _ := call in
      let! _ := use KGridfs g in
      let! _ := use KBson meta in
      let! f := make KFile in
      let! _ := use KFile f in
      let! _ := kill KFile f in
      ret ok
  end.

(** data_raster.hpp:870-976 ReadGridFsFile. [ok]: the reading succeeds; [k1], [k2]:
    attempts that fail to find the file; whether the metadata are complete makes
    no difference here. *)
Definition ReadGridFsFile (k1 : nat) (ok : bool) (k2 : nat) (own : option nat) : D unit :=
  let! x := GetStreamData k1 ok own None in
  match x with
  | (true, Some b) =>
      let! m := GetFileMetadata k2 own None in
      let! _ := (match m with Some _ => use KBson m | None => ret tt end) in
      let! _ := kill KBson m in
      kill KBuffer (Some b)
  | _ => ret tt
  end.

(** data_raster.hpp:1068-1074: up to four attempts, the first [k] fail. *)
Fixpoint write_attempts (n k : nat) (meta own : option nat) : D bool :=
  match n with
  | O => ret false
  | S n' =>
      let! ok := WriteStreamData (match k with O => true | _ => false end) meta own None in
      if ok then ret true else write_attempts n' (pred k) meta own
  end.

(** data_raster.hpp:989-1078 WriteStreamDataAsGridfs; [n] files of that name are
    removed. The buffer with the converted data is left out. *)
Definition WriteStreamDataAsGridfs (n k : nat) (own : option nat) : D bool :=
  let! _ := RemoveFile n own None in
  let! p := make KBson in
  let! s := write_attempts 4 k p own in
  let! _ := kill KBson p in
  ret s.

(** What a program holds: objects of the classes of db_mongoc.h:46-178, and
    pointers the functions have returned. *)
Inductive slot :=
| SClient (p : option nat) | SDatabase (p : option nat) | SCollection (p : option nat) | SGridfs (p : option nat)
| SPointer (k : kind) (p : option nat).

(** Places of a program (no counterpart in db_mongoc.h:46-178); emptied places stay. *)
Definition world := list (option slot).
(** No counterpart in db_mongoc.h:46-178. *)
Definition at_ (w : world) (i : nat) : option slot := match nth_error w i with Some s => s | None => None end.
(** No counterpart in db_mongoc.h:46-178. *)
Definition clear (w : world) (i : nat) : world := upd w i None.
(** No counterpart in db_mongoc.h:46-178. *)
Definition add (w : world) (s : slot) : world := w ++ [Some s].

(** Calls of a program, db_mongoc.h:46-178; numbers are places, then answers of the
    driver. The argument [gfs] of the functions of MongoGridFs is a place or NULL. *)
Inductive op :=
| OInit (host : bytes) (ok : bool)
| ODestroy (i : nat)
| ODeleteClient (i : nat)
| ODatabaseNames (i : nat) (ok : bool)
| OGetDatabase (i : nat)
| OGetCollection (i : nat) (has : bool)
| OGetGridFs (i : nat) (a1 a2 : bool)
| OGridFs (i : nat) (a1 a2 : bool)
| OCollectionNames (i : nat) (ok : bool)
| OFileNames (i : nat) (a1 a2 : bool) (n : nat)
| ODatabase (j : nat)                              (* MongoDatabase of a pointer *)
| ODeleteDatabase (i : nat)
| ODbCollectionNames (i : nat) (ok : bool)
| OCollection (j : nat)                            (* MongoCollection of a pointer *)
| ODeleteCollection (i : nat)
| OQuery (i : nat)
| OCount (i : nat)
| OGridfs (j : option nat)                         (* MongoGridFs of a pointer or NULL *)
| ODeleteGridfs (i : nat)
| OGetFile (i : nat) (arg : option nat) (k : nat)
| ORemoveFile (i : nat) (arg : option nat) (n : nat)
| OGfsFileNames (i : nat) (arg : option nat) (n : nat)
| OMetadata (i : nat) (arg : option nat) (k : nat)
| OStream (i : nat) (arg : option nat) (k : nat) (ok : bool)
| ORead (i : nat) (k1 : nat) (ok : bool) (k2 : nat)
| OWrite (i : nat) (n k : nat)
| OFree (j : nat)                                  (* the caller destroys what a pointer refers to *)
| OCopyCollection (i : nat) | OCopyGridfs (i : nat).

(** The bucket at a place, an argument of the functions of db_mongoc.h:141-178. *)
Definition pointer (w : world) (j : option nat) : option nat :=
  match j with
  | Some i => match at_ w i with Some (SPointer KGridfs p) => p | _ => None end
  | None => None
  end.

(** One call, db_mongoc.h:46-178. A call whose place does not hold an object of the
    class is no program and does nothing. *)
Definition step (w : world) (o : op) : D world :=
  match o with
  | OInit host ok => let! c := InitClient host ok in ret (match c with Some p => add w (SClient p) | None => w end)
  | ODestroy i => match at_ w i with Some (SClient p) => let! _ := Destroy p in ret w | _ => ret w end
  (* db_mongoc.cpp:99-101: the destructor does nothing *)
  | ODeleteClient i => match at_ w i with Some (SClient p) => ret (clear w i) | _ => ret w end
  | ODatabaseNames i ok => match at_ w i with Some (SClient p) => let! _ := GetDatabaseNames ok p in ret w | _ => ret w end
  | OGetDatabase i => match at_ w i with Some (SClient p) => let! q := GetDatabase p in ret (add w (SPointer KDatabase q)) | _ => ret w end
  | OGetCollection i has => match at_ w i with Some (SClient p) => let! q := GetCollection has p in ret (add w (SPointer KCollection q)) | _ => ret w end
  | OGetGridFs i a1 a2 => match at_ w i with Some (SClient p) => let! q := GetGridFs a1 a2 p in ret (add w (SPointer KGridfs q)) | _ => ret w end
  (* db_mongoc.cpp:183-185 *)
  | OGridFs i a1 a2 => match at_ w i with Some (SClient p) => let! q := GetGridFs a1 a2 p in ret (add w (SGridfs q)) | _ => ret w end
  | OCollectionNames i ok => match at_ w i with Some (SClient p) => let! _ := ClientCollectionNames ok p in ret w | _ => ret w end
  | OFileNames i a1 a2 n => match at_ w i with Some (SClient p) => let! _ := ClientFileNames a1 a2 n p in ret w | _ => ret w end
  | ODatabase j => match at_ w j with Some (SPointer KDatabase p) => let! _ := WrapDatabase p in ret (add (clear w j) (SDatabase p)) | _ => ret w end
  | ODeleteDatabase i => match at_ w i with Some (SDatabase p) => let! _ := DeleteDatabase p in ret (clear w i) | _ => ret w end
  | ODbCollectionNames i ok => match at_ w i with Some (SDatabase p) => let! _ := DbCollectionNames ok p in ret w | _ => ret w end
  (* db_mongoc.cpp:267-269 *)
  | OCollection j => match at_ w j with Some (SPointer KCollection p) => ret (add (clear w j) (SCollection p)) | _ => ret w end
  | ODeleteCollection i => match at_ w i with Some (SCollection p) => let! _ := DeleteCollection p in ret (clear w i) | _ => ret w end
  | OQuery i => match at_ w i with Some (SCollection p) => let! q := ExecuteQuery p in ret (add w (SPointer KCursor q)) | _ => ret w end
  | OCount i => match at_ w i with Some (SCollection p) => let! _ := QueryRecordsCount p in ret w | _ => ret w end
  (* db_mongoc.cpp:300-302 *)
  | OGridfs None => ret (add w (SGridfs None))
  | OGridfs (Some j) => match at_ w j with Some (SPointer KGridfs p) => ret (add (clear w j) (SGridfs p)) | _ => ret w end
  | ODeleteGridfs i => match at_ w i with Some (SGridfs p) => let! _ := DeleteGridfs p in ret (clear w i) | _ => ret w end
  | OGetFile i arg k => match at_ w i with Some (SGridfs p) => let! q := GetFile k p (pointer w arg) in ret (add w (SPointer KFile q)) | _ => ret w end
  | ORemoveFile i arg n => match at_ w i with Some (SGridfs p) => let! _ := RemoveFile n p (pointer w arg) in ret w | _ => ret w end
  | OGfsFileNames i arg n => match at_ w i with Some (SGridfs p) => let! _ := GetFileNames n p (pointer w arg) in ret w | _ => ret w end
  | OMetadata i arg k => match at_ w i with Some (SGridfs p) => let! q := GetFileMetadata k p (pointer w arg) in ret (add w (SPointer KBson q)) | _ => ret w end
  | OStream i arg k ok => match at_ w i with Some (SGridfs p) => let! q := GetStreamData k ok p (pointer w arg) in ret (add w (SPointer KBuffer (snd q))) | _ => ret w end
  | ORead i k1 ok k2 => match at_ w i with Some (SGridfs p) => let! _ := ReadGridFsFile k1 ok k2 p in ret w | _ => ret w end
  | OWrite i n k => match at_ w i with Some (SGridfs p) => let! _ := WriteStreamDataAsGridfs n k p in ret w | _ => ret w end
  | OFree j =>
      match at_ w j with
      | Some (SPointer k p) =>
          let! _ := (match k with KBson | KBuffer => ret tt | _ => call end) in
          let! _ := kill k p in ret (clear w j)
      | _ => ret w
      end
  (* db_mongoc.h:120-178: copies that the compiler provides *)
  | OCopyCollection i => match at_ w i with Some (SCollection p) => ret (add w (SCollection p)) | _ => ret w end
  | OCopyGridfs i => match at_ w i with Some (SGridfs p) => ret (add w (SGridfs p)) | _ => ret w end
  end.

(** A program, call by call, over db_mongoc.h:46-178. *)
Fixpoint run (w : world) (h : list op) : D world :=
  match h with [] => ret w | o :: t => let! w' := step w o in run w' t end.

(** Nothing has been called. Before db_mongoc.cpp:84. *)
Definition start : driver := mkDriver 0 [] Before.
