(** Command line of the raster tool (apps/mask_rasterio.cpp), up to the point
    where options and data items are known. Proof-free. *)
From Coq Require Import ZArith Ascii String List Bool.
From Verif Require Import Base StrModel MapModel SubsetModel RasterModel.
Import ListNotations.
Open Scope Z_scope.
Open Scope outcome_scope.

(** mask_rasterio.h:10-16 IOMODE. *)
Inductive iomode := DEC | COM | MASKDEC | MASK | UNKNOWNMODE.
(** mask_rasterio.cpp:19-26 StringToIOMode. *)
Definition StringToIOMode (s : bytes) : iomode :=
  let u := GetUpper s in
  if beqb u (str "DEC") || beqb u (str "DECOMPOSE") then DEC
  else if beqb u (str "COM") || beqb u (str "COMBINE") then COM
  else if beqb u (str "MASK&DEC") || beqb u (str "MASKDEC") then MASKDEC
  else if beqb u (str "MASK") then MASK else UNKNOWNMODE.

(** mask_rasterio.h:20-24 DATAFMT. *)
Inductive datafmt := SFILE | GFS | UNKNOWNFMT.
(** mask_rasterio.cpp:28-33 StringToDataFormat. *)
Definition StringToDataFormat (s : bytes) : datafmt :=
  let u := GetUpper s in
  if beqb u (str "SFILE") || beqb u (str "FILE") then SFILE
  else if beqb u (str "GFS") || beqb u (str "GRIDFS") then GFS else UNKNOWNFMT.

(** mask_rasterio.cpp:97, 110: [tmpfmt == GFS || tmpfmt == SFILE], which is "not UNKNOWNFMT". *)
Definition known_fmt (f : datafmt) : bool := match f with UNKNOWNFMT => false | _ => true end.

(** utils_filesystem.cpp:35-41 FilesExist, for a given state of the disk. *)
Definition FilesExist (exists_file : bytes -> bool) (l : list bytes) : bool :=
  match l with [] => false | _ => forallb exists_file l end.

(** mask_rasterio.cpp:82-123 parse_fmt_paths: the format and paths it sets, or
    [None] when it returns false. [.at] outside the vector throws. *)
Definition parse_fmt_paths (exists_file : bytes -> bool) (tag : bytes) (strs : list bytes)
  : outcome (option (datafmt * list bytes)) :=
  match strs with
  | [] => Ok None
  | s0 :: rest =>
      let fmt0 := StringToDataFormat s0 in
      let paths := SplitString_d (match rest with s1 :: _ => s1 | [] => s0 end) "," in
      if negb (StringMatch tag (str "OUT")) && FilesExist exists_file paths then Ok (Some (SFILE, paths))
      else match rest with
           | [] => if known_fmt fmt0 then Ok (Some (fmt0, paths))
                   else match paths with
                        | [] => Throw
                        | p :: _ => Ok (Some (if existsb (fun c => beqb [c] (str "/")) p then SFILE else GFS, paths))
                        end
           | _ => if known_fmt fmt0 then Ok (Some (fmt0, paths)) else Ok None
           end
  end.

Section External.
Context {V : Type}.
(** External: strtod, called by IsDouble (mask_rasterio.cpp:140, utils_string.cpp:308). *)
Variable strtod : bytes -> V * nat.

(** mask_rasterio.cpp:138-143 parse_key_values: values up to the first that is no number. *)
Fixpoint take_values (l : list bytes) : list V :=
  match l with
  | [] => []
  | s :: t => let (v, ok) := IsDouble V strtod s in if ok then v :: take_values t else []
  end.

(** mask_rasterio.cpp:131-153 parse_key_values, one entry: the map and the flag. *)
Definition kv_step (st : list (Z * list V) * bool) (entry : bytes) : list (Z * list V) * bool :=
  match SplitString_d entry ":" with
  | [k; vals] =>
      let (key, ok) := IsInt k in
      if ok then
        let tmp := SplitString_d vals "|" in
        let v := take_values tmp in
        if Nat.eqb (length tmp) (length v)
        then (match zfind (fst st) key with Some _ => fst st | None => zput (fst st) key v end, snd st)
        else (fst st, false)
      else st
  | _ => st
  end.

(** mask_rasterio.cpp:125-155 parse_key_values on an empty map. *)
Definition parse_key_values (s : bytes) : list (Z * list V) * bool :=
  match SplitString_d s "," with
  | [] => ([], false)
  | l => fold_left kv_step l ([], true)
  end.

(** [arg[0] == '-']; the first character of an empty argument is NUL.
    mask_rasterio.cpp:205-216. *)
Definition dash (a : bytes) : bool := match a with c :: _ => beqb [c] (str "-") | [] => false end.

(** mask_rasterio.cpp:205-216 main: the configuration file and the indices of the
    options; [args] are [argv[idx] ...]. [argv[argc]] is a null pointer. *)
Fixpoint scan_args (idx : nat) (args : list bytes) (cfg : bytes) (seps : list nat) : outcome (bytes * list nat) :=
  match args with
  | [] => Ok (cfg, seps)
  | a :: t =>
      if negb (dash a) then scan_args (S idx) t cfg seps
      else
        let* cfg' := (if StringMatch a (str "-configfile")
                      then match t with [] => UB | n :: _ => Ok (if dash n then cfg else n) end
                      else Ok cfg) in
        scan_args (S idx) t cfg' (if snd (IsDouble V strtod a) then seps else seps ++ [idx])
  end.

(** mask_rasterio.cpp:232-238 main: one option; [args] from [argv[0]]. *)
Definition add_option (argv : list bytes) (m : smap (list bytes)) (ab : nat * nat) : smap (list bytes) :=
  let vals := firstn (snd ab - fst ab - 1) (skipn (fst ab + 1) argv) in
  match vals with
  | [] => m
  | _ => let key := nth (fst ab) argv [] in
         if StringMatch key (str "-configfile") then m else emplace m (GetUpper (skipn 1 key)) vals
  end.

(** mask_rasterio.cpp:200-239 main. [arg_sep] ends with [argc], so that the branch for
    an empty [arg_sep] (220-230) cannot run; it is kept here. *)
Definition collect_args (argv : list bytes) : outcome (option (bytes * smap (list bytes))) :=
  if (Z.of_nat (length argv) <? 2) then Ok None
  else
    let* sc := scan_args 1 (skipn 1 argv) [] [] in
    let arg_sep := snd sc ++ [length argv] in
    match arg_sep with
    | [] => match fst sc with
            | [] => match nth_error argv 1 with
                    | Some a => if negb (dash a) then Ok (Some (a, [])) else Ok None
                    | None => UB
                    end
            | cfg => Ok (Some (cfg, []))
            end
    | _ => Ok (Some (fst sc, fold_left (add_option argv) (combine arg_sep (skipn 1 arg_sep)) []))
    end.

(** mask_rasterio.cpp:254-276 main, one line of the configuration file. *)
Definition config_line (st : smap (list bytes) * list (list bytes)) (line : bytes) : smap (list bytes) * list (list bytes) :=
  let s := TrimSpaces line in
  match s with
  | [] => st
  | c :: _ =>
      if beqb [c] (str "#") then st
      else if beqb [c] (str "-") then
        match SplitString_d s "009" with
        | k :: ((_ :: _) as vals) => (emplace (fst st) (GetUpper (skipn 1 k)) vals, snd st)
        | _ => st
        end
      else match SplitString_d s ";" with
           | [] => st
           | items => (fst st, snd st ++ [items])
           end
  end.

(** mask_rasterio.cpp:165-277: how main may go on. *)
Inductive started := Exit (code : Z) | Run (keys : smap (list bytes)) (items : list (list bytes)).

(** mask_rasterio.cpp:165-277 main: options and data items, or an early return
    value. [load] is the outcome of FileExists and LoadPlainTextFile (C18):
    [None] no such file, [Some None] unreadable. *)
Definition start (load : bytes -> option (option (list bytes))) (argv : list bytes) : outcome started :=
  let* c := collect_args argv in
  match c with
  | None => Ok (Exit 1)
  | Some ([], keys) => Ok (Run keys [])
  | Some (cfg, keys) =>
      match load cfg with
      | None => Ok (Exit 2)
      | Some None => Ok (Exit 3)
      | Some (Some lines) => let st := fold_left config_line lines (keys, []) in Ok (Run (fst st) (snd st))
      end
  end.
End External.
