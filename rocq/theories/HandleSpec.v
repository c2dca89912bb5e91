(** What a careful program is, for C131-C134: the calls it makes, looking at what
    it holds and at the phase of the driver. *)
From Coq Require Import List Bool Arith.
From Verif Require Import Base BasicModel HandleModel.
Import ListNotations.

Definition running (d : driver) : Prop := d_phase d = Running.
Definition alive (d : driver) (b : nat) (k : kind) : Prop := In (b, k) (d_live d).

(** The object of the driver that a place holds. *)
Definition holds (s : slot) : kind * option nat :=
  match s with
  | SClient p => (KClient, p) | SDatabase p => (KDatabase, p) | SCollection p => (KCollection, p)
  | SGridfs p => (KGridfs, p) | SPointer k p => (k, p)
  end.
Definition held (w : world) (b : nat) (k : kind) : Prop := exists i s, at_ w i = Some s /\ holds s = (k, Some b).

(** No bucket, neither in the object nor as an argument. *)
Definition without_bucket (w : world) (i : nat) (arg : option nat) : Prop :=
  at_ w i = Some (SGridfs None) /\ pointer w arg = None.

(** The driver is started first and shut down last; addresses are numeric; what may
    be NULL is not used for queries and lists; nothing is copied. *)
Definition careful (w : world) (d : driver) (o : op) : Prop :=
  match o with
  | OInit host ok => d_phase d <> After /\ (ok = true -> IsIpAddress host = true)
  | ODeleteClient _ | OCollection _ | OGridfs _ => True
  | OFileNames _ a1 a2 _ => running d /\ (a1 = true \/ a2 = true)
  | OQuery i | OCount i => running d /\ at_ w i <> Some (SCollection None)
  | ODeleteGridfs i => running d \/ at_ w i = Some (SGridfs None)
  | OGetFile i arg _ | ORemoveFile i arg _ | OMetadata i arg _ | OStream i arg _ _ => running d \/ without_bucket w i arg
  | ORead i _ _ _ | OWrite i _ _ => running d \/ without_bucket w i None
  | OGfsFileNames i arg _ => running d /\ ~ without_bucket w i arg
  | OFree j => running d \/ exists k p, at_ w j = Some (SPointer k p) /\ (k = KBson \/ k = KBuffer)
  | OCopyCollection _ | OCopyGridfs _ => False
  | _ => running d
  end.

(** Calls that leave something behind: listing files, counting records, asking for
    a collection that does not exist, a reading that fails, and deleting a client
    that is still connected. *)
Definition leaks (w : world) (d : driver) (o : op) : Prop :=
  match o with
  | OGetCollection i has => has = false /\ exists p, at_ w i = Some (SClient p)
  | OCount i => exists p, at_ w i = Some (SCollection p)
  | OGfsFileNames i _ _ => exists p, at_ w i = Some (SGridfs p)
  | OFileNames i _ _ _ => exists p, at_ w i = Some (SClient p)
  | ORead i k1 ok _ => ok = false /\ k1 < 5 /\ exists b, at_ w i = Some (SGridfs (Some b))
  | ODeleteClient i => exists b, at_ w i = Some (SClient (Some b)) /\ alive d b KClient
  | _ => False
  end.
Definition tidy (w : world) (d : driver) (o : op) : Prop := ~ leaks w d o.

(** The place holds an object of the class the call is made on. *)
Definition effective (w : world) (o : op) : Prop :=
  match o with
  | OInit _ _ | OGridfs None => True
  | ODestroy i | ODeleteClient i | ODatabaseNames i _ | OGetDatabase i | OGetCollection i _ | OGetGridFs i _ _ | OGridFs i _ _
  | OCollectionNames i _ | OFileNames i _ _ _ => exists p, at_ w i = Some (SClient p)
  | ODatabase j => exists p, at_ w j = Some (SPointer KDatabase p)
  | ODeleteDatabase i | ODbCollectionNames i _ => exists p, at_ w i = Some (SDatabase p)
  | OCollection j => exists p, at_ w j = Some (SPointer KCollection p)
  | ODeleteCollection i | OQuery i | OCount i | OCopyCollection i => exists p, at_ w i = Some (SCollection p)
  | OGridfs (Some j) => exists p, at_ w j = Some (SPointer KGridfs p)
  | ODeleteGridfs i | OGetFile i _ _ | ORemoveFile i _ _ | OGfsFileNames i _ _ | OMetadata i _ _ | OStream i _ _ _
  | ORead i _ _ _ | OWrite i _ _ | OCopyGridfs i => exists p, at_ w i = Some (SGridfs p)
  | OFree j => exists k p, at_ w j = Some (SPointer k p)
  end.

(** Every call of the program, made in the state it is made in, satisfies [P]. *)
Fixpoint always (P : world -> driver -> op -> Prop) (w : world) (d : driver) (h : list op) : Prop :=
  match h with
  | [] => True
  | o :: t => P w d o /\ forall w' d', step w o d = Ok (w', d') -> always P w' d' t
  end.

(** Copying an object of the classes, which the compiler permits. *)
Definition copies (o : op) : Prop := match o with OCopyCollection _ | OCopyGridfs _ => True | _ => False end.

(** The calls of the raster tool between opening and closing: rasters are read from
    and written to the bucket at place 1. *)
Definition reads_or_writes (o : op) : Prop := match o with ORead 1 _ _ _ | OWrite 1 _ _ => True | _ => False end.
(** A file is found within five attempts but cannot be read. *)
Definition fails (o : op) : bool := match o with ORead _ k1 ok _ => negb ok && (k1 <? 5) | _ => false end.
