(** Model of the functions of src/utils_filesystem.cpp (Linux branch) that ask for
    or change what is behind a name: on a tree of directories, files and symbolic
    links in which names are resolved as POSIX says. Not modelled: hard links and
    mounts, races with other processes, limits on the length of names, failing
    reads of directories. Proof-free. *)
From Coq Require Import ZArith Ascii String List Bool.
From Verif Require Import Base StrModel MapModel FsModel.
Import ListNotations.
Open Scope Z_scope.

(** What the file system holds. [TOther]: devices, pipes and sockets
    (utils_filesystem.cpp:43-55: neither S_ISDIR nor S_ISREG). *)
Inductive tree := TFile (content : bytes) | TLink (target : bytes) | TOther | TDir (entries : list (bytes * tree)).

(** What lstat(2) tells of one place (utils_filesystem.cpp:51-53). *)
Inductive kind := KFile (content : bytes) | KLink (target : bytes) | KOther | KDir.
(** lstat(2) (utils_filesystem.cpp:51-53). *)
Definition kind_of (t : tree) : kind := match t with TFile c => KFile c | TLink l => KLink l | TOther => KOther | TDir _ => KDir end.

(** A place: the names from the root down to it (utils_filesystem.cpp:283-294). *)
Definition place := list bytes.

(** The subtree at a place (utils_filesystem.cpp:283-294). *)
Fixpoint get (t : tree) (p : place) : option tree :=
  match p with
  | [] => Some t
  | n :: r => match t with TDir es => match lookup es n with Some t' => get t' r | None => None end | _ => None end
  end.
(** lstat(2) of a place (utils_filesystem.cpp:51-53). *)
Definition kind_at (t : tree) (p : place) : option kind := option_map kind_of (get t p).

(** Directory entry [n] becomes [v], or goes (utils_filesystem.cpp:60, 146). *)
Definition edit (es : list (bytes * tree)) (n : bytes) (v : option tree) : list (bytes * tree) :=
  filter (fun e => negb (beqb (fst e) n)) es ++ match v with Some x => [(n, x)] | None => [] end.
(** The entry [n] of the directory at a place is changed (utils_filesystem.cpp:60, 146). *)
Fixpoint put (t : tree) (d : place) (n : bytes) (v : option tree) : tree :=
  match t with
  | TDir es =>
      match d with
      | [] => TDir (edit es n v)
      | m :: r => TDir (map (fun e => if beqb (fst e) m then (fst e, put (snd e) r n v) else e) es)
      end
  | _ => t
  end.

(** The names between the separators of a path (basic.h:293). *)
Fixpoint comps (s : bytes) : list bytes :=
  match s with
  | [] => [[]]
  | c :: t => if ascii_dec c SEP then [] :: comps t
              else match comps t with h :: r => (c :: h) :: r | [] => [[c]] end
  end.
(** A path from the root (basic.h:293). *)
Definition absolute (s : bytes) : bool := match s with c :: _ => if ascii_dec c SEP then true else false | [] => false end.
(** "", "." and ".." (path_resolution(7)) are no names of entries (utils_filesystem.cpp:97-98). *)
Definition dot_name (c : bytes) : bool := beqb c [] || beqb c (str ".") || beqb c (str "..").

(** Path resolution of the operating system, as realpath, stat and access use it
    (utils_filesystem.cpp:31, 52, 288): at most [links] symbolic links are
    followed. [create]: the last name need not exist, as in open(2) with O_CREAT. *)
Fixpoint walk (create : bool) (root : tree) (links : nat) {struct links} : place -> list bytes -> option place :=
  fix go (pos : place) (cs : list bytes) {struct cs} : option place :=
    match cs with
    | [] => Some pos
    | c :: r =>
        match kind_at root pos with
        | Some KDir =>
            if beqb c [] || beqb c (str ".") then go pos r
            else if beqb c (str "..") then go (removelast pos) r
            else match kind_at root (pos ++ [c]) with
                 | None => match r with [] => if create then Some (pos ++ [c]) else None | _ => None end
                 | Some (KLink t) =>
                     match links with
                     | O => None
                     | S l => walk create root l (if absolute t then [] else pos) (comps t ++ r)
                     end
                 | Some _ => go (pos ++ [c]) r
                 end
        | _ => None
        end
    end.
(** The limit of Linux on links in one resolution (utils_filesystem.cpp:288). *)
Definition MAXLINKS : nat := 40%nat.
(** Resolution of a path, [cwd] being the working directory (utils_filesystem.cpp:31, 52, 288). *)
Definition resolve (create : bool) (root : tree) (cwd : place) (p : bytes) : option place :=
  match p with [] => None | _ => walk create root MAXLINKS (if absolute p then [] else cwd) (comps p) end.
(** The text of a place: what realpath(3) returns (utils_filesystem.cpp:288). *)
Definition text (p : place) : bytes := match p with [] => [SEP] | _ => concat (map (fun c => SEP :: c) p) end.

Section Fs.
(** The working directory of the process (utils_filesystem.cpp:288). *)
Variable cwd : place.
(** Directories in which the process may create and remove entries, and files it may
    open for writing (utils_filesystem.cpp:60, 146; data_raster.cpp:192). *)
Variable may : place -> bool.
(** Files the process may open for writing (data_raster.cpp:192). *)
Variable may_write : place -> bool.

(** stat(2): links are followed (utils_filesystem.cpp:51-53, 134-135). *)
Definition stat (root : tree) (p : bytes) : option kind :=
  match resolve false root cwd p with Some q => kind_at root q | None => None end.
(** The operating system as seen by FsModel (utils_filesystem.cpp:134-135, 283-294). *)
Definition os_of (root : tree) : os :=
  {| realpath := fun p => option_map text (resolve false root cwd p);
     isdir := fun p => match stat root p with Some KDir => true | _ => false end |}.

(** utils_filesystem.cpp:23-33 FileExists. *)
Definition FileExists (root : tree) (p : bytes) : bool := match stat root p with Some _ => true | None => false end.

(** utils_filesystem.cpp:43-55 PathExists. *)
Definition PathExists (root : tree) (p : bytes) : bool :=
  match stat root (GetAbsolutePath (os_of root) p) with Some KDir | Some (KFile _) => true | _ => false end.

(** remove(3) of a name without trailing separator or dots: any entry but a directory
    that is not empty (utils_filesystem.cpp:60). *)
Definition remove (root : tree) (p : bytes) : Z * tree :=
  let cs := comps p in
  let n := last cs [] in
  if dot_name n then (-1, root)
  else match walk false root MAXLINKS (if absolute p then [] else cwd) (removelast cs) with
       | Some d =>
           match get root (d ++ [n]) with
           | None => (-1, root)
           | Some (TDir (_ :: _)) => (-1, root)
           | Some _ => if may d then (0, put root d n None) else (-1, root)
           end
       | None => (-1, root)
       end.

(** utils_filesystem.cpp:57-63 DeleteExistedFile: returned value and the tree afterwards. *)
Definition DeleteExistedFile (root : tree) (p : bytes) : Z * tree :=
  let a := GetAbsolutePath (os_of root) p in
  if FileExists root a then remove root a else (-1, root).

(** Separators at the end of the name of a new directory do not count (mkdir(2),
    utils_filesystem.cpp:146). *)
Fixpoint drop_empty (rev_cs : list bytes) : list bytes :=
  match rev_cs with [] :: r => drop_empty r | _ => rev_cs end.
(** mkdir(2): the last name is not followed if it is a link (utils_filesystem.cpp:146). *)
Definition mkdir (root : tree) (p : bytes) : bool * tree :=
  match drop_empty (rev (comps p)) with
  | [] => (false, root)
  | n :: r =>
      if dot_name n then (false, root)
      else match walk false root MAXLINKS (if absolute p then [] else cwd) (rev r) with
           | Some d =>
               match kind_at root d, kind_at root (d ++ [n]) with
               | Some KDir, None => if may d then (true, put root d n (Some (TDir []))) else (false, root)
               | _, _ => (false, root)
               end
           | None => (false, root)
           end
  end.

(** utils_filesystem.cpp:139-148 MakeDirectory: returned value and the tree afterwards. *)
Definition MakeDirectory (root : tree) (p : bytes) : bool * tree :=
  let a := GetAbsolutePath (os_of root) p in
  if DirectoryExists (os_of root) a then (true, root) else mkdir root a.

(** Opening for appending and writing [t] (data_raster.cpp:192): the tree afterwards,
    [None] when the file cannot be opened. What is written to devices is lost. *)
Definition append_file (root : tree) (p : bytes) (t : bytes) : option tree :=
  match resolve true root cwd p with
  | Some q =>
      match kind_at root q with
      | Some (KFile c) => if may_write q then Some (put root (removelast q) (last q []) (Some (TFile (c ++ t)))) else None
      | Some KOther => if may_write q then Some root else None
      | Some _ => None
      | None => if may (removelast q) then Some (put root (removelast q) (last q []) (Some (TFile t))) else None
      end
  | None => None
  end.

(** data_raster.cpp:189-208 WriteAscHeaders, [t] being the text of the header: the
    tree afterwards, [None] when it returns false. *)
Definition WriteAscHeaders (root : tree) (p : bytes) (t : bytes) : option tree :=
  let root1 := snd (DeleteExistedFile root p) in
  append_file root1 (GetAbsolutePath (os_of root1) p) t.

(** data_raster.hpp:3137-3138 and 3183-3210 OutputAscFile of one layer: [t1], [t2] are
    the texts of the header and of the cells. *)
Definition OutputAscFile1 (root : tree) (p : bytes) (t1 t2 : bytes) : option tree :=
  match WriteAscHeaders root (GetAbsolutePath (os_of root) p) t1 with
  | Some root1 => append_file root1 p t2
  | None => None
  end.

(** data_raster.hpp:325-346 WriteSingleAsc: likewise. *)
Definition WriteSingleAsc (root : tree) (p : bytes) (t1 t2 : bytes) : option tree :=
  let a := GetAbsolutePath (os_of root) p in
  let dirname := GetPathFromFullName (os_of root) a in
  let root0 := if PathExists root dirname then root else snd (MakeDirectory root dirname) in
  match WriteAscHeaders root0 a t1 with
  | Some root1 => append_file root1 a t2
  | None => None
  end.
End Fs.

(** utils_filesystem.cpp:250-280 GetAppPath: [exe] is the answer of readlink(2), cut at
    PATH_MAX bytes, [None] when it fails. Names hold no zero bytes. *)
Definition GetAppPath (exe : option bytes) : bytes :=
  let root_path := match exe with Some b => if 4096 <=? Z.of_nat (List.length b) then [] else b | None => [] end in
  match find_last SEP root_path with Some i => firstn (i + 1) root_path | None => [] end.
