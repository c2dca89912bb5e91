(** Model of src/utils_filesystem.cpp, Linux branch (SEP = '/', basic.h:293).
    The operating system enters as an [os] record of arbitrary functions for
    path questions, and as a tree for directory contents. Proof-free. *)
From Coq Require Import ZArith Ascii String List Bool.
From Verif Require Import Base StrModel.
Import ListNotations.
Open Scope nat_scope.

(** basic.h:293. *)
Definition SEP : ascii := "/".
(** utils_filesystem.cpp:304, 313. *)
Definition DOT : ascii := ".".

(** [std::string::find_last_of(c)]: last index or npos ([None]).
    E.g. utils_filesystem.cpp:298, 304. *)
Fixpoint find_last (c : ascii) (s : bytes) : option nat :=
  match s with
  | [] => None
  | x :: t => match find_last c t with
              | Some n => Some (S n)
              | None => if ascii_dec x c then Some 0 else None
              end
  end.

(** [substr(start, end - start)] on size_type: a negative difference wraps to a
    huge count, which means "to the end". [start <= length] holds at each use.
    utils_filesystem.cpp:308. *)
Definition substr_to (s : bytes) (start stop : nat) : bytes :=
  if stop <? start then skipn start s else firstn (stop - start) (skipn start s).

(** What the operating system answers: realpath(3), [None] on error, and
    "stat says it is a directory" (utils_filesystem.cpp:134-135). *)
Record os := { realpath : bytes -> option bytes; isdir : bytes -> bool }.

Section Paths.
(** Answers to realpath and stat (utils_filesystem.cpp:134-135, 283-294). *)
Variable o : os.

(** utils_filesystem.cpp:283-294 GetAbsolutePath. *)
Definition GetAbsolutePath (f : bytes) : bytes :=
  match realpath o f with Some p => p | None => f end.

(** utils_filesystem.cpp:123-137 DirectoryExists. *)
Definition DirectoryExists (f : bytes) : bool := isdir o (GetAbsolutePath f).

(** utils_filesystem.cpp:296-309 GetCoreFileName. *)
Definition GetCoreFileName (f : bytes) : bytes :=
  let a := GetAbsolutePath f in
  let start := match find_last SEP a with None => 0 | Some i => i + 1 end in
  let stop := match find_last DOT a with None => length a | Some i => i end in
  substr_to a start stop.

(** utils_filesystem.cpp:311-318 GetSuffix. *)
Definition GetSuffix (f : bytes) : bytes :=
  let tokens := SplitString_d (GetAbsolutePath f) DOT in
  if 2 <=? length tokens then last tokens [] else [].

(** utils_filesystem.cpp:350-359 GetPathFromFullName (the message to stdout is
    dropped). *)
Definition GetPathFromFullName (f : bytes) : bytes :=
  let a := GetAbsolutePath f in
  if DirectoryExists a then a
  else match find_last SEP a with None => [] | Some i => firstn (i + 1) a end.

(** utils_filesystem.cpp:361-370 ConcatFullName. npos and [length - 1] of the
    empty string are the same number, hence the first case. *)
Definition ConcatFullName (fdir core suffix : bytes) : bytes :=
  let p := GetAbsolutePath fdir in
  let p1 := match p, find_last SEP p with
            | [], _ => p
            | _, Some i => if i =? length p - 1 then p else p ++ [SEP]
            | _, None => p ++ [SEP]
            end in
  let p2 := p1 ++ core in
  match suffix with [] => p2 | _ => p2 ++ DOT :: suffix end.

(** utils_filesystem.cpp:320-326 ReplaceSuffix. *)
Definition ReplaceSuffix (f new_suffix : bytes) : bytes :=
  let filedir := GetPathFromFullName f in
  let core := GetCoreFileName f in
  match filedir, GetSuffix f with
  | [], _ | _, [] => []
  | _, _ => filedir ++ core ++ DOT :: new_suffix
  end.

(** utils_filesystem.cpp:328-337 AppendCoreFileName (text and number forms). *)
Definition AppendCoreFileName (f endstr : bytes) (deli : ascii) : bytes :=
  ConcatFullName (GetPathFromFullName f) (GetCoreFileName f ++ deli :: endstr) (GetSuffix f).
(** utils_filesystem.cpp:334-337. *)
Definition AppendCoreFileName_int (f : bytes) (n : Z) (deli : ascii) : bytes :=
  AppendCoreFileName f (itoa n) deli.

(** utils_filesystem.cpp:339-348 PrefixCoreFileName (text and number forms). *)
Definition PrefixCoreFileName (f prestr : bytes) (deli : ascii) : bytes :=
  ConcatFullName (GetPathFromFullName f) (prestr ++ deli :: GetCoreFileName f) (GetSuffix f).
(** utils_filesystem.cpp:345-348. *)
Definition PrefixCoreFileName_int (f : bytes) (n : Z) (deli : ascii) : bytes :=
  PrefixCoreFileName f (itoa n) deli.

(** [std::string::find(sub) != npos]. utils_filesystem.cpp:108. *)
Fixpoint starts_with (p s : bytes) : bool :=
  match p, s with
  | [], _ => true
  | a :: p', b :: s' => if ascii_dec a b then starts_with p' s' else false
  | _ :: _, [] => false
  end.
(** utils_filesystem.cpp:108. *)
Fixpoint contains (s sub : bytes) : bool :=
  starts_with sub s || match s with [] => false | _ :: t => contains t sub end.

(** utils_filesystem.cpp:105-110: the test applied to one directory entry. *)
Definition entry_matches (expression name : bytes) : bool :=
  let ext := GetSuffix name in
  StringMatch ext expression || contains expression ext
  || StringMatch expression (str ".*") || StringMatch expression (str "*.*").

(** utils_filesystem.cpp:97-101: "." and ".." and other names starting with a
    dot are skipped. *)
Definition hidden (name : bytes) : bool :=
  match name with c :: _ => if ascii_dec c DOT then true else false | [] => false end.

(** Directory contents: a leaf is anything that is not a directory (regular
    file, symbolic link, ...); a directory knows whether the process may list
    it and may remove entries from it (search permission is not separated).
    What opendir and readdir (utils_filesystem.cpp:91-121, 222-248) see. *)
Inductive node := Leaf | Dir (readable writable : bool) (es : list (bytes * node)).

(** utils_filesystem.cpp:65-121 FindFiles, the part from opendir (line 91), for
    the directory [dir] found under the absolute path [path]: the vector of
    paths appended. The returned code is 0 in every case. *)
Definition FindFiles (path : bytes) (dir : node) (expression : bytes) : list bytes :=
  match dir with
  | Dir true _ es => map (fun n => path ++ SEP :: n)
                         (filter (fun n => negb (hidden n) && entry_matches expression n) (map fst es))
  | _ => []
  end.

(** remove(3): unlink, or rmdir on an empty directory. [pw]: the directory
    holding the entry is writable. utils_filesystem.cpp:159, 240, 245. *)
Definition removable (pw : bool) (n : node) : bool :=
  pw && match n with Leaf => true | Dir _ _ [] => true | Dir _ _ (_ :: _) => false end.

(** utils_filesystem.cpp:150-168 CleanDirectory: returned value and what the
    path names afterwards. FindFiles is applied with "*.*"; a removal that
    fails is counted. [pw]: the parent directory is writable (for mkdir, line
    146). The exception handler is unreachable. *)
Definition CleanDirectory (pw : bool) (path : bytes) (dir : option node) : bool * option node :=
  match dir with
  | None => (pw, if pw then Some (Dir true true []) else None)
  | Some Leaf => (false, dir)
  | Some (Dir r w es) =>
      let listed e := r && negb (hidden (fst e)) && entry_matches (str "*.*") (fst e) in
      (negb (existsb (fun e => listed e && negb (removable w (snd e))) es),
       Some (Dir r w (filter (fun e => negb (listed e && removable w (snd e))) es)))
  end.
End Paths.

(** utils_filesystem.cpp:170-172 and 222-248 DeleteDirectory on a directory
    tree: what is left of it, [None] when it is gone. The function returns true
    in every case. The entries' paths are taken to be shorter than PATH_MAX and
    [d_type] to be filled in. *)
Fixpoint DeleteDirectory (del_subdirs pw : bool) (n : node) : option node :=
  match n with
  | Leaf => Some Leaf
  | Dir false w es => Some n
  | Dir true w es =>
      let fix loop (l : list (bytes * node)) : list (bytes * node) :=
        match l with
        | [] => []
        | (nm, c) :: t =>
            let c1 := match c with
                      | Dir _ _ _ => if del_subdirs then DeleteDirectory del_subdirs w c else Some c
                      | Leaf => Some c
                      end in
            match c1 with
            | None => loop t
            | Some c2 => if removable w c2 then loop t else (nm, c2) :: loop t
            end
        end in
      let n1 := Dir true w (loop es) in
      if removable pw n1 then None else Some n1
  end.

(** A file opened for reading: its bytes, and whether reading past them reports
    an error (a directory, a device failure) instead of the end of file.
    utils_filesystem.cpp:375-383. *)
Record source := { content : bytes; read_error : bool }.

(** utils_filesystem.cpp:381-391, the loop over lines. [getline] up to '\n';
    reaching the end sets eofbit; a read error sets badbit only (libstdc++
    catches the exception), after which [good()] is false and [eof()] stays
    false. [None]: still running when the fuel is used up. *)
Fixpoint load_loop (fuel : nat) (src : source) (bad : bool) (out : list bytes) : option (list bytes) :=
  match fuel with
  | 0 => None
  | S k =>
      if bad then load_loop k src true out
      else
        let (line, rest) := span_delim "010"%char (content src) in
        let trimmed := Trim line in
        let out1 := match trimmed with
                    | [] => out
                    | c :: _ => if ascii_dec c "#" then out else out ++ [trimmed]
                    end in
        match rest with
        | Some r => load_loop k {| content := r; read_error := read_error src |} false out1
        | None => if read_error src then load_loop k {| content := []; read_error := true |} true out1
                  else Some out1
        end
  end.

(** utils_filesystem.cpp:372-403 LoadPlainTextFile: [file = None] when the file
    cannot be opened. Returned flag and new vector; [None] as above. *)
Definition LoadPlainTextFile (fuel : nat) (file : option source) (prior : list bytes) : option (bool * list bytes) :=
  match file with
  | None => Some (false, prior)
  | Some src => match load_loop fuel src false prior with
                | Some out => Some (true, out)
                | None => None
                end
  end.

(** utils_filesystem.cpp:35-41 FilesExist; [exists] is access(2). *)
Definition FilesExist (exist : bytes -> bool) (fs : list bytes) : bool :=
  match fs with [] => false | _ => forallb exist fs end.

(** utils_filesystem.cpp:170-172, 222-248 DeleteDirectory as called: returned
    value and what the path names afterwards ([None]: nothing there). *)
Definition DeleteDirectory_call (del_subdirs pw : bool) (n : option node) : bool * option node :=
  match n with
  | Some (Dir r w es) => (true, DeleteDirectory del_subdirs pw (Dir r w es))
  | _ => (true, n)
  end.
