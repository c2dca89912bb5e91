(** Words for the properties of names and places. *)
From Coq Require Import ZArith Ascii String List Bool.
From Verif Require Import Base FsModel PathModel.
Import ListNotations.

(** A name of a directory entry. *)
Definition entry_name (n : bytes) : Prop := n <> [] /\ n <> str "." /\ n <> str ".." /\ ~ In SEP n.

(** The entries of all directories have such names, and the root is a directory. *)
Definition names_ok (root : tree) : Prop := forall p k, kind_at root p = Some k -> Forall entry_name p.
Definition fs_ok (root : tree) : Prop := names_ok root /\ kind_at root [] = Some KDir.

(** The two trees differ at one place. *)
Definition only_change (root root' : tree) (q : place) (k : option kind) : Prop :=
  kind_at root' q = k /\ forall x, x <> q -> kind_at root' x = kind_at root x.

(** Anything but a symbolic link. *)
Definition solid (k : kind) : Prop := match k with KLink _ => False | _ => True end.

(** A subtree without entries. *)
Definition leaf (x : tree) : Prop := match x with TDir (_ :: _) => False | _ => True end.

(** The name [n] in the directory named [dp]. *)
Definition in_dir (dp n : bytes) : bytes := dp ++ SEP :: n.

(** The text of a directory with the separator at its end. *)
Definition dir_text (d : place) : bytes := concat (map (fun c => SEP :: c) d) ++ [SEP].

(** The place [x] is [q] or lies below it. *)
Definition below (q x : place) : Prop := exists r, x = q ++ r.

(** Nothing but places at or below [q] changed, and these only by being removed. *)
Definition only_removed (root root' : tree) (q : place) : Prop :=
  forall x, kind_at root' x = kind_at root x \/ (kind_at root' x = None /\ below q x).

(** A directory with entries. *)
Definition filled_dir (root : tree) (q : place) : Prop := exists n, kind_at root (q ++ [n]) <> None.

(** Everything at or below [q] is less than [k] names away from it. *)
Definition within (root : tree) (q : place) (k : nat) : Prop := forall x, kind_at root (q ++ x) <> None -> (List.length x < k)%nat.

(** All directories at or below [q] may be listed and changed. *)
Definition open_below (may may_read : place -> bool) (root : tree) (q : place) : Prop :=
  forall x, kind_at root (q ++ x) = Some KDir -> may (q ++ x) = true /\ may_read (q ++ x) = true.
