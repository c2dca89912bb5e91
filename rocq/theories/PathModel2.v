(** Model of the functions of src/utils_filesystem.cpp (Linux branch) that work on
    whole directories, on the trees of PathModel.v. readdir(3) gives the entries that
    were there when the directory was opened; paths are shorter than PATH_MAX and
    [d_type] is filled in. Proof-free. *)
From Coq Require Import ZArith Ascii String List Bool.
From Verif Require Import Base StrModel MapModel FsModel PathModel.
Import ListNotations.
Open Scope Z_scope.

Section Dirs.
(** The working directory (utils_filesystem.cpp:288). *)
Variable cwd : place.
(** Directories in which entries may be created and removed (utils_filesystem.cpp:146, 159, 240). *)
Variable may : place -> bool.
(** Directories that may be listed (utils_filesystem.cpp:91, 226). *)
Variable may_read : place -> bool.

(** opendir(3) and readdir(3) without "." and "..", of an absolute path: the place and
    the names (utils_filesystem.cpp:91-98, 226-233). *)
Definition entries_of (root : tree) (a : bytes) : option (place * list bytes) :=
  match resolve false root cwd a with
  | Some q => if may_read q then match get root q with Some (TDir es) => Some (q, map fst es) | _ => None end else None
  | None => None
  end.

(** utils_filesystem.cpp:65-121 FindFiles: the paths appended to the vector. *)
Definition FindFiles (root : tree) (p expression : bytes) : list bytes :=
  let a := GetAbsolutePath (os_of cwd root) p in
  match entries_of root a with
  | Some (_, ns) => map (fun n => a ++ SEP :: n) (filter (fun n => negb (hidden n) && entry_matches (os_of cwd root) expression n) ns)
  | None => []
  end.

(** utils_filesystem.cpp:157-160: every file is removed, failures are counted. *)
Fixpoint remove_files (root : tree) (files : list bytes) : Z * tree :=
  match files with
  | [] => (0, root)
  | f :: r => let (e, root1) := remove cwd may root f in
              let (k, root2) := remove_files root1 r in ((if e <? 0 then 1 else 0) + k, root2)
  end.

(** utils_filesystem.cpp:150-168 CleanDirectory: returned value and the tree afterwards. *)
Definition CleanDirectory (root : tree) (p : bytes) : bool * tree :=
  let a := GetAbsolutePath (os_of cwd root) p in
  if DirectoryExists (os_of cwd root) a then
    let (err_count, root') := remove_files root (FindFiles root a (str "*.*")) in (err_count =? 0, root')
  else MakeDirectory cwd may root a.

(** utils_filesystem.cpp:232-242: the loop over the entries; [del] is the recursive call. *)
Fixpoint delete_entries (del : tree -> bytes -> option tree) (del_subdirs : bool) (root0 : tree) (q : place) (a : bytes) (ns : list bytes) (root : tree) : option tree :=
  match ns with
  | [] => Some root
  | n :: r =>
      let path := a ++ SEP :: n in
      let sub := match kind_at root0 (q ++ [n]) with Some KDir => del_subdirs | _ => false end in
      match (if sub then del root path else Some root) with
      | Some root1 => delete_entries del del_subdirs root0 q a r (snd (remove cwd may root1 path))
      | None => None
      end
  end.

(** utils_filesystem.cpp:170-172, 222-248 DeleteDirectory: the tree afterwards; the
    function returns true in every case. [None]: [fuel] calls were not enough. *)
Fixpoint DeleteDirectory (fuel : nat) (del_subdirs : bool) (root : tree) (p : bytes) : option tree :=
  match fuel with
  | O => None
  | S k =>
      let a := GetAbsolutePath (os_of cwd root) p in
      if negb (DirectoryExists (os_of cwd root) a) then Some root
      else match entries_of root a with
           | None => Some root
           | Some (q, ns) =>
               match delete_entries (DeleteDirectory k del_subdirs) del_subdirs root q a ns root with
               | Some root' => Some (snd (remove cwd may root' a))
               | None => None
               end
           end
  end.
End Dirs.
