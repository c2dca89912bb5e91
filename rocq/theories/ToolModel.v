(** The raster tool (apps/mask_rasterio.cpp) after its arguments are collected
    ([AppModel.start]): options, data items, and the calls of the library it
    makes. Proof-free.

    Simplifications valid for the whole file: the program is compiled with GDAL
    and with MongoDB; console messages are dropped; the library is a parameter
    that tells which rasters can be read, and the run is the list of calls made
    to it. What the calls do to values is modelled in the files on rasters. *)
From Coq Require Import ZArith Ascii String List Bool.
From Verif Require Import Base StrModel MapModel FsModel BasicModel SubsetModel AppModel.
Import ListNotations.
Open Scope Z_scope.
Open Scope outcome_scope.

(** The order of keys of a [map<string, ...>] (mask_rasterio.cpp:219), that of
    [string::compare]: bytes as unsigned numbers. *)
Fixpoint key_le (a b : bytes) : bool :=
  match a, b with
  | [], _ => true
  | _, [] => false
  | x :: a', y :: b' => if (N_of_ascii x <? N_of_ascii y)%N then true
                        else if (N_of_ascii x =? N_of_ascii y)%N then key_le a' b' else false
  end.
(** mask_rasterio.cpp:281: the loop over [key_args] takes the keys in order. *)
Fixpoint key_insert {A} (e : bytes * A) (l : list (bytes * A)) : list (bytes * A) :=
  match l with
  | [] => [e]
  | f :: t => if key_le (fst e) (fst f) then e :: l else f :: key_insert e t
  end.
(** mask_rasterio.cpp:281. *)
Definition by_key {A} (m : smap A) : smap A := fold_right key_insert [] m.

(** mask_rasterio.cpp:281: the loop is left by a [return] or goes on. *)
Inductive flow (A : Type) := Return (code : Z) | Go (a : A).
Arguments Return {A} code.
Arguments Go {A} a.

(** [v.at(i)] on a vector, e.g. mask_rasterio.cpp:520: throws outside. *)
Definition at_ {A} (l : list A) (i : nat) : outcome A :=
  match nth_error l i with Some a => Ok a | None => Throw end.

Section Tool.
Context {V : Type}.
(** External: strtod (utils_string.cpp:308). *)
Variable strtod : bytes -> V * nat.
(** NODATA_VALUE (basic.h:244-246). *)
Variable nodata_value : V.
(** Answers of the operating system to path questions (utils_filesystem.cpp:283-294). *)
Variable o : os.
(** FileExists (utils_filesystem.cpp:23-33). *)
Variable exists_file : bytes -> bool.
(** Connecting with the four words of -mongo (mask_rasterio.cpp:340-352): [None]
    when there is no client, else whether there is a GridFS. *)
Variable connect : list bytes -> option bool.

(** Reclassification table, [map<vint, vector<double> >] (mask_rasterio.cpp:198). *)
Definition table := list (Z * list V).

(** The variables of main (mask_rasterio.cpp:166-198) that options and items set. *)
Record vars := mkVars {
  v_mode : iomode; v_threads : Z; v_inc : bool; v_mongo : bool;
  v_mask_fmt : datafmt; v_mask : bytes;
  v_infmt : datafmt; v_in_fmts : list datafmt; v_ins : list (list bytes);
  v_outfmt : datafmt; v_out_fmts : list datafmt; v_outs : list bytes;
  v_default : V; v_upd : bool; v_nodata : V;
  v_defaults : list V; v_upds : list bool; v_nodatas : list V;
  v_type : rdt; v_types : list rdt;
  v_recls : bool; v_reclss : list bool; v_tables : list table }.

(** Initial values (mask_rasterio.cpp:166-198). *)
Definition vars0 : vars :=
  mkVars MASK 1 true false UNKNOWNFMT [] UNKNOWNFMT [] [] UNKNOWNFMT [] []
         nodata_value false nodata_value [] [] [] RDT_Unknown [] false [] [].

(** Assignment to mode (mask_rasterio.cpp:283). *)
Definition set_mode (v : vars) (m : iomode) : vars :=
  mkVars m (v_threads v) (v_inc v) (v_mongo v) (v_mask_fmt v) (v_mask v) (v_infmt v) (v_in_fmts v) (v_ins v)
    (v_outfmt v) (v_out_fmts v) (v_outs v) (v_default v) (v_upd v) (v_nodata v) (v_defaults v) (v_upds v) (v_nodatas v)
    (v_type v) (v_types v) (v_recls v) (v_reclss v) (v_tables v).
(** Assignment to thread_num (mask_rasterio.cpp:358-362). *)
Definition set_threads (v : vars) (n : Z) : vars :=
  mkVars (v_mode v) n (v_inc v) (v_mongo v) (v_mask_fmt v) (v_mask v) (v_infmt v) (v_in_fmts v) (v_ins v)
    (v_outfmt v) (v_out_fmts v) (v_outs v) (v_default v) (v_upd v) (v_nodata v) (v_defaults v) (v_upds v) (v_nodatas v)
    (v_type v) (v_types v) (v_recls v) (v_reclss v) (v_tables v).
(** Assignment to inc_nodata (mask_rasterio.cpp:365-369). *)
Definition set_inc (v : vars) (b : bool) : vars :=
  mkVars (v_mode v) (v_threads v) b (v_mongo v) (v_mask_fmt v) (v_mask v) (v_infmt v) (v_in_fmts v) (v_ins v)
    (v_outfmt v) (v_out_fmts v) (v_outs v) (v_default v) (v_upd v) (v_nodata v) (v_defaults v) (v_upds v) (v_nodatas v)
    (v_type v) (v_types v) (v_recls v) (v_reclss v) (v_tables v).
(** Assignment to use_mongo (mask_rasterio.cpp:346-351). *)
Definition set_mongo (v : vars) (b : bool) : vars :=
  mkVars (v_mode v) (v_threads v) (v_inc v) b (v_mask_fmt v) (v_mask v) (v_infmt v) (v_in_fmts v) (v_ins v)
    (v_outfmt v) (v_out_fmts v) (v_outs v) (v_default v) (v_upd v) (v_nodata v) (v_defaults v) (v_upds v) (v_nodatas v)
    (v_type v) (v_types v) (v_recls v) (v_reclss v) (v_tables v).
(** Assignment to mask_fmt and mask_path (mask_rasterio.cpp:298-302). *)
Definition set_mask (v : vars) (f : datafmt) (p : bytes) : vars :=
  mkVars (v_mode v) (v_threads v) (v_inc v) (v_mongo v) f p (v_infmt v) (v_in_fmts v) (v_ins v)
    (v_outfmt v) (v_out_fmts v) (v_outs v) (v_default v) (v_upd v) (v_nodata v) (v_defaults v) (v_upds v) (v_nodatas v)
    (v_type v) (v_types v) (v_recls v) (v_reclss v) (v_tables v).
(** Assignment to global_infmt, in_fmts and in_paths (mask_rasterio.cpp:288-294). *)
Definition set_in (v : vars) (f : datafmt) (fs : list datafmt) (ps : list (list bytes)) : vars :=
  mkVars (v_mode v) (v_threads v) (v_inc v) (v_mongo v) (v_mask_fmt v) (v_mask v) f fs ps
    (v_outfmt v) (v_out_fmts v) (v_outs v) (v_default v) (v_upd v) (v_nodata v) (v_defaults v) (v_upds v) (v_nodatas v)
    (v_type v) (v_types v) (v_recls v) (v_reclss v) (v_tables v).
(** Assignment to global_outfmt, out_fmts and out_paths (mask_rasterio.cpp:306-310). *)
Definition set_out (v : vars) (f : datafmt) (fs : list datafmt) (ps : list bytes) : vars :=
  mkVars (v_mode v) (v_threads v) (v_inc v) (v_mongo v) (v_mask_fmt v) (v_mask v) (v_infmt v) (v_in_fmts v) (v_ins v)
    f fs ps (v_default v) (v_upd v) (v_nodata v) (v_defaults v) (v_upds v) (v_nodatas v)
    (v_type v) (v_types v) (v_recls v) (v_reclss v) (v_tables v).
(** Assignment to global_defaultv (mask_rasterio.cpp:317-318). *)
Definition set_default (v : vars) (x : V) : vars :=
  mkVars (v_mode v) (v_threads v) (v_inc v) (v_mongo v) (v_mask_fmt v) (v_mask v) (v_infmt v) (v_in_fmts v) (v_ins v)
    (v_outfmt v) (v_out_fmts v) (v_outs v) x (v_upd v) (v_nodata v) (v_defaults v) (v_upds v) (v_nodatas v)
    (v_type v) (v_types v) (v_recls v) (v_reclss v) (v_tables v).
(** Assignment to global_updnodata and global_nodata (mask_rasterio.cpp:321-323). *)
Definition set_nodata (v : vars) (b : bool) (x : V) : vars :=
  mkVars (v_mode v) (v_threads v) (v_inc v) (v_mongo v) (v_mask_fmt v) (v_mask v) (v_infmt v) (v_in_fmts v) (v_ins v)
    (v_outfmt v) (v_out_fmts v) (v_outs v) (v_default v) b x (v_defaults v) (v_upds v) (v_nodatas v)
    (v_type v) (v_types v) (v_recls v) (v_reclss v) (v_tables v).
(** Assignment to global_outtype (mask_rasterio.cpp:314). *)
Definition set_type (v : vars) (t : rdt) : vars :=
  mkVars (v_mode v) (v_threads v) (v_inc v) (v_mongo v) (v_mask_fmt v) (v_mask v) (v_infmt v) (v_in_fmts v) (v_ins v)
    (v_outfmt v) (v_out_fmts v) (v_outs v) (v_default v) (v_upd v) (v_nodata v) (v_defaults v) (v_upds v) (v_nodatas v)
    t (v_types v) (v_recls v) (v_reclss v) (v_tables v).
(** Assignment to global_recls and reclass_keyvalues (mask_rasterio.cpp:327-328). *)
Definition set_recls (v : vars) (b : bool) (ts : list table) : vars :=
  mkVars (v_mode v) (v_threads v) (v_inc v) (v_mongo v) (v_mask_fmt v) (v_mask v) (v_infmt v) (v_in_fmts v) (v_ins v)
    (v_outfmt v) (v_out_fmts v) (v_outs v) (v_default v) (v_upd v) (v_nodata v) (v_defaults v) (v_upds v) (v_nodatas v)
    (v_type v) (v_types v) b (v_reclss v) ts.
(** Assignment to the vectors with one entry per data set (mask_rasterio.cpp:397-415, 464-473). *)
Definition set_lists (v : vars) (ifs : list datafmt) (ins : list (list bytes)) (ofs : list datafmt) (outs : list bytes)
    (ds : list V) (us : list bool) (ns : list V) (ts : list rdt) (rs : list bool) (tabs : list table) : vars :=
  mkVars (v_mode v) (v_threads v) (v_inc v) (v_mongo v) (v_mask_fmt v) (v_mask v) (v_infmt v) ifs ins
    (v_outfmt v) ofs outs (v_default v) (v_upd v) (v_nodata v) ds us ns
    (v_type v) ts (v_recls v) rs tabs.
(** Assignment to global_infmt and global_outfmt (mask_rasterio.cpp:376-381, 434-437). *)
Definition set_fmts (v : vars) (i f : datafmt) : vars :=
  mkVars (v_mode v) (v_threads v) (v_inc v) (v_mongo v) (v_mask_fmt v) (v_mask v) i (v_in_fmts v) (v_ins v)
    f (v_out_fmts v) (v_outs v) (v_default v) (v_upd v) (v_nodata v) (v_defaults v) (v_upds v) (v_nodatas v)
    (v_type v) (v_types v) (v_recls v) (v_reclss v) (v_tables v).

(** [IsDouble] with NODATA_VALUE for texts that are no number (mask_rasterio.cpp:317-318, 321-323). *)
Definition number_or_nodata (s : bytes) : V := let (x, ok) := IsDouble V strtod s in if ok then x else nodata_value.

(** [itkv->first == "..."] (mask_rasterio.cpp:282-364). *)
Definition key_is (k : bytes) (names : list string) : bool := existsb (fun n => beqb k (str n)) names.

(** mask_rasterio.cpp:281-373, one option. [.at(0)] of no value throws; [tmppaths[0]]
    of an empty vector is undefined. *)
Definition option_step (v : vars) (kv : bytes * list bytes) : outcome (flow vars) :=
  let k := fst kv in let vals := snd kv in
  if key_is k ["MODE"%string] then
    let* s := at_ vals 0 in
    match StringToIOMode s with UNKNOWNMODE => Ok (Return 1) | m => Ok (Go (set_mode v m)) end
  else if key_is k ["IN"%string; "INPUT"%string] then
    let* p := parse_fmt_paths exists_file (str "IN") vals in
    match p with
    | None => Ok (Return 2)
    | Some (f, []) => Ok (Go (set_in v f (v_in_fmts v) (v_ins v)))
    | Some (f, ps) => Ok (Go (set_in v f (v_in_fmts v ++ [f]) (v_ins v ++ [ps])))
    end
  else if key_is k ["MASK"%string] then
    let* p := parse_fmt_paths exists_file (str "MASK") vals in
    match p with
    | None => Ok (Return 2)
    | Some (f, []) => UB
    | Some (f, p0 :: _) => Ok (Go (set_mask v f p0))
    end
  else if key_is k ["OUT"%string; "OUTPUT"%string] then
    let* p := parse_fmt_paths exists_file (str "OUT") vals in
    match p with
    | None => Ok (Go v)
    | Some (f, []) => Ok (Go (set_out v f (v_out_fmts v) (v_outs v)))
    | Some (f, p0 :: _) => Ok (Go (set_out v f (v_out_fmts v ++ [f]) (v_outs v ++ [p0])))
    end
  else if key_is k ["OUTDATATYPE"%string] then
    let* s := at_ vals 0 in Ok (Go (set_type v (StringToRasterDataType s)))
  else if key_is k ["DEFAULT"%string; "DEFAULTVALUE"%string] then
    let* s := at_ vals 0 in Ok (Go (set_default v (number_or_nodata s)))
  else if key_is k ["NODATA"%string; "NODATAVALUE"%string] then
    let* s := at_ vals 0 in Ok (Go (set_nodata v true (number_or_nodata s)))
  else if key_is k ["RECLASS"%string] then
    let* s := at_ vals 0 in
    let (m, ok) := parse_key_values strtod s in Ok (Go (set_recls v ok (v_tables v ++ [m])))
  else if key_is k ["MONGO"%string; "MONGODB"%string] then
    if (length vals <? 4)%nat then Ok (Return 1)
    else Ok (Go (match connect (firstn 4 vals) with None => v | Some b => set_mongo v b end))
  else if key_is k ["THREAD"%string] then
    let* s := at_ vals 0 in
    let (n, ok) := IsInt s in Ok (Go (set_threads v (if ok then n else 1)))
  else if key_is k ["INCLUDE_NODATA"%string] then
    let* s := at_ vals 0 in
    let (n, ok) := IsInt s in Ok (Go (set_inc v (if ok then 0 <? n else true)))
  else Ok (Go v).

(** mask_rasterio.cpp:281-374: the options in the order of their keys. *)
Fixpoint options (v : vars) (l : list (bytes * list bytes)) : outcome (flow vars) :=
  match l with
  | [] => Ok (Go v)
  | kv :: t =>
      let* f := option_step v kv in
      match f with Return c => Ok (Return c) | Go v' => options v' t end
  end.

(** Equality with an enumerator (mask_rasterio.cpp:377-380). *)
Definition fmt_is (a b : datafmt) : bool :=
  match a, b with SFILE, SFILE | GFS, GFS | UNKNOWNFMT, UNKNOWNFMT => true | _, _ => false end.

(** mask_rasterio.cpp:385-396: the output name when none is given. *)
Definition default_out (first : bytes) (many : bool) : bytes :=
  if negb many then AppendCoreFileName o first (str "masked") "_"
  else
    let core := GetCoreFileName o first in
    let n := match find_last "_" core with None => length core | Some i => i end in
    GetPathFromFullName o first ++ firstn n core ++ str "_masked." ++ GetSuffix o first.

(** [if (l.empty()) { l.push_back(a); }] (mask_rasterio.cpp:398-406). *)
Definition or_one {A} (l : list A) (a : A) : list A := match l with [] => [a] | _ => l end.

(** mask_rasterio.cpp:375-416. [in_paths[0]] is not empty (see [option_step]); the
    model says undefined where it would be. *)
Definition align (v : vars) : outcome (flow vars) :=
  let of1 := if negb (v_mongo v) && fmt_is (v_outfmt v) GFS then SFILE else v_outfmt v in
  let of2 := if fmt_is of1 UNKNOWNFMT then v_infmt v else of1 in
  let v1 := set_fmts v (v_infmt v) of2 in
  match v_ins v1 with
  | [] => Ok (Go (set_lists v1 (v_in_fmts v1) [] [] [] [] [] [] [] [] []))
  | [ps] =>
      let* outs := (match v_outs v1 with
                    | [] => match ps with
                            | [] => UB
                            | p :: rest => Ok [default_out p (match rest with [] => false | _ => true end)]
                            end
                    | l => Ok l
                    end) in
      Ok (Go (set_lists v1 (v_in_fmts v1) [ps]
        (match v_out_fmts v1 with [] => [of2] | _ :: t => of2 :: t end) outs
        (or_one (v_defaults v1) (v_default v1)) (or_one (v_upds v1) (v_upd v1)) (or_one (v_nodatas v1) (v_nodata v1))
        (or_one (v_types v1) (v_type v1)) (or_one (v_reclss v1) (v_recls v1)) (or_one (v_tables v1) [])))
  | _ => Ok (Return 1)
  end.

(** mask_rasterio.cpp:434-437: the formats in force for an item. *)
Definition item_fmts (v : vars) (ins : list bytes) : vars :=
  let i1 := if fmt_is (v_infmt v) UNKNOWNFMT && FilesExist exists_file ins then SFILE else v_infmt v in
  let i2 := if fmt_is i1 UNKNOWNFMT && negb (match ins with [] => true | _ => false end) && v_mongo v then GFS else i1 in
  let f1 := if negb (fmt_is (v_outfmt v) GFS) && v_mongo v then GFS else v_outfmt v in
  let f2 := if fmt_is f1 UNKNOWNFMT then SFILE else f1 in
  set_fmts v i2 f2.

(** Text of a field that is there and not empty (mask_rasterio.cpp:440, 446). *)
Definition field (it : list bytes) (i : nat) : option bytes :=
  match nth_error it i with Some [] | None => None | Some s => Some s end.

(** mask_rasterio.cpp:418-475, one data item; [it] has at least one field. *)
Definition item_step (v : vars) (it : list bytes) : outcome vars :=
  match it with
  | [] => Throw
  | [[]] => Ok v
  | f0 :: rest =>
      let ins := SplitString_d f0 "," in
      let out := match rest with [] => [] | s :: _ => s end in
      match ins, out with
      | [[]], [] => Ok v
      | _, _ =>
          let v1 := item_fmts v ins in
          let dv := match field it 2 with None => nodata_value | Some s => number_or_nodata s end in
          let (nd, upd) := match field it 3 with
                           | None => (nodata_value, false)
                           | Some s => let (x, ok) := IsDouble V strtod s in if ok then (x, true) else (nodata_value, false)
                           end in
          let ty := match nth_error it 4 with
                    | None => RDT_Unknown
                    | Some s => match StringToRasterDataType s with RDT_Unknown => v_type v1 | t => t end
                    end in
          let (tab, recls) := match nth_error it 5 with None => ([], false) | Some s => parse_key_values strtod s end in
          if (negb (FilesExist exists_file ins) && recls) || (fmt_is (v_infmt v1) SFILE && FilesExist exists_file ins)
             || fmt_is (v_infmt v1) GFS
          then Ok (set_lists v1 (v_in_fmts v1 ++ [v_infmt v1]) (v_ins v1 ++ [ins]) (v_out_fmts v1 ++ [v_outfmt v1]) (v_outs v1 ++ [out])
                 (v_defaults v1 ++ [dv]) (v_upds v1 ++ [upd]) (v_nodatas v1 ++ [nd]) (v_types v1 ++ [ty])
                 (v_reclss v1 ++ [recls]) (v_tables v1 ++ [tab]))
          else Ok v1
      end
  end.

(** mask_rasterio.cpp:418-475. *)
Fixpoint items (v : vars) (l : list (list bytes)) : outcome vars :=
  match l with
  | [] => Ok v
  | it :: t => let* v' := item_step v it in items v' t
  end.

(** mask_rasterio.cpp:278-475. *)
Definition prepare (keys : smap (list bytes)) (its : list (list bytes)) : outcome (flow vars) :=
  let* f := options vars0 (by_key keys) in
  match f with
  | Return c => Ok (Return c)
  | Go v =>
      let* g := align v in
      match g with
      | Return c => Ok (Return c)
      | Go v' => let* v'' := items v' its in Ok (Go v'')
      end
  end.

(** Calls of the library (mask_rasterio.cpp:477-662): rasters are "the mask" and
    "the raster of this data set". *)
Inductive call :=
| SetThreads (n : Z)                                             (* 481 *)
| InitMask (f : datafmt) (p : bytes)                             (* 487, 491 *)
| MaskBuildSubset                                                (* 505 *)
| InitFiles (ps : list bytes) (masked : bool) (dv : V)           (* 529-532 *)
| InitGfs (p : bytes) (masked : bool) (dv : V) (inc : bool) (t : rdt) (* 537-540 *)
| SetOutType (t : rdt)                                           (* 533 *)
| ReplaceNoData (x : V)                                          (* 548 *)
| BuildSubset                                                    (* 551, 589 *)
| OutSubsetFile (comb : bool) (p : bytes) (t : table) (dv : V)   (* 557-565 *)
| OutFile (p : bytes) (origin : bool)                            (* 567-568 *)
| OutSubsetGfs (comb : bool) (p : bytes) (inc : bool) (t : rdt) (tab : table) (dv : V) (* 574-583, 591 *)
| OutGfs (p : bytes) (inc : bool) (t : rdt)                      (* 595 *)
| Delete                                                         (* 602 *)
| MaskSetDefault (dv : V)                                        (* 608 *)
| MaskUnusable                                                   (* 609-612 *)
| SubFromFile (id : Z) (p : bytes)                               (* 623-629 *)
| SubFromGfs (id : Z) (p : bytes)                                (* 633 *)
| MaskSetOutType (t : rdt)                                       (* 639 *)
| MaskOutFile (p : bytes)                                        (* 641 *)
| MaskOutGfs (p : bytes) (inc : bool) (t : rdt)                  (* 645-646 *)
| DeleteMask                                                     (* 656 *)
| Disconnect.                                                    (* 659-661 *)

(** What the library answers: whether the mask can be read, whether a raster can
    be read from files (it may throw, C95) or from GridFS, the ids of the subsets
    of the mask, and whether a file for a subset can be read
    (mask_rasterio.cpp:487, 491, 529, 537, 609, 624). *)
Variable mask_ok : datafmt -> bytes -> bool.
(** mask_rasterio.cpp:529. *)
Variable files_ok : list bytes -> bool -> V -> outcome bool.
(** mask_rasterio.cpp:537. *)
Variable gfs_ok : bytes -> bool -> V -> outcome bool.
(** mask_rasterio.cpp:609. *)
Variable mask_ids : list Z.
(** mask_rasterio.cpp:624. *)
Variable sub_ok : bytes -> outcome bool.

(** mask_rasterio.cpp:483-497: whether there is a mask, or the return value 3. *)
Definition load_mask (v : vars) : flow (bool * list call) :=
  match v_mask v with
  | [] => Go (false, [])
  | p =>
      if fmt_is (v_mask_fmt v) SFILE && exists_file p then
        if mask_ok SFILE p then Go (true, [InitMask SFILE p]) else Return 3
      else if fmt_is (v_mask_fmt v) GFS && v_mongo v then
        if mask_ok GFS p then Go (true, [InitMask GFS p]) else Return 3
      else Go (false, [])
  end.

(** mask_rasterio.cpp:506-511: output_all and output_subset. *)
Definition wants_all (m : iomode) : bool := match m with MASK | MASKDEC => true | _ => false end.
(** mask_rasterio.cpp:507. *)
Definition wants_subset (m : iomode) : bool := match m with DEC | MASKDEC => true | _ => false end.

(** mask_rasterio.cpp:554-600: the outputs of one raster. *)
Definition outputs (v : vars) (masked : bool) (fmt : datafmt) (path : bytes) (t : rdt) (recls : bool) (tab : table) (dv : V) : list call :=
  let all := wants_all (v_mode v) in
  let sub := wants_subset (v_mode v) in
  if fmt_is fmt SFILE then
    if recls then (if sub then [OutSubsetFile false path tab dv] else []) ++ (if all then [OutSubsetFile true path tab dv] else [])
    else (if sub then [OutFile path false] else []) ++ (if all then [OutFile path true] else [])
  else if fmt_is fmt GFS && v_mongo v then
    if recls then (if sub then [OutSubsetGfs false path (v_inc v) t tab dv] else []) ++ (if all then [OutSubsetGfs true path (v_inc v) t tab dv] else [])
    else (if sub then (if masked then [] else [BuildSubset]) ++ [OutSubsetGfs false path (v_inc v) t [] nodata_value] else [])
         ++ (if all then [OutGfs (str "0_" ++ path) (v_inc v) t] else [])
  else [].

(** mask_rasterio.cpp:520-525: the output type of one data set. *)
Definition out_type (t : rdt) : rdt := match t with RDT_Unknown => RDT_Double | t => t end.

(** mask_rasterio.cpp:526-602: one data set in the modes that mask or decompose.
    A call of a member of a null pointer is undefined (533). Entries of the vectors
    are looked up once, also where the code needs them on some paths only; the
    vectors are never shorter than [in_paths] (C110). *)
Definition process (v : vars) (masked : bool) (i : nat) (ps : list bytes) (t : rdt) : outcome (list call) :=
  let* f := at_ (v_in_fmts v) i in
  let rest (calls : list call) : outcome (list call) :=
    let* upd := at_ (v_upds v) i in
    let* c1 := (if upd then let* x := at_ (v_nodatas v) i in Ok [ReplaceNoData x] else Ok []) in
    let* recls := at_ (v_reclss v) i in
    let* fmt := at_ (v_out_fmts v) i in
    let* path := at_ (v_outs v) i in
    let* tab := at_ (v_tables v) i in
    let* dv := at_ (v_defaults v) i in
    Ok (calls ++ c1 ++ (if recls then [BuildSubset] else []) ++ outputs v masked fmt path t recls tab dv ++ [Delete]) in
  if fmt_is f SFILE && FilesExist exists_file ps then
    let* dv := at_ (v_defaults v) i in
    let* ok := files_ok ps masked dv in
    if ok then rest [InitFiles ps masked dv; SetOutType t] else UB
  else if fmt_is f GFS && v_mongo v then
    let* p := at_ ps 0 in
    let* dv := at_ (v_defaults v) i in
    let* ok := gfs_ok p masked dv in
    if ok then rest [InitGfs p masked dv (v_inc v) t] else Ok []
  else Ok [].

(** mask_rasterio.cpp:614-637: one file of a data set to be combined. *)
Definition fill (v : vars) (f : datafmt) (p : bytes) : outcome (list call) :=
  match SplitString_d (GetCoreFileName o p) "_" with
  | [] => Ok []
  | s :: _ =>
      let (id, ok) := IsInt s in
      if negb ok then Ok []
      else if negb (existsb (Z.eqb id) mask_ids) then Ok []
      else if fmt_is f SFILE && exists_file p then
        let* r := sub_ok p in Ok (if r then [SubFromFile id p] else [])
      else if fmt_is f GFS && v_mongo v then Ok [SubFromGfs id p]
      else Ok []
  end.

(** mask_rasterio.cpp:614-637. *)
Fixpoint fills (v : vars) (f : datafmt) (ps : list bytes) : outcome (list call) :=
  match ps with
  | [] => Ok []
  | p :: t => let* a := fill v f p in let* b := fills v f t in Ok (a ++ b)
  end.

(** mask_rasterio.cpp:603-652: one data set in the mode that combines. *)
Definition combine_set (v : vars) (masked : bool) (i : nat) (ps : list bytes) (t : rdt) : outcome (flow (list call)) :=
  if negb masked then Ok (Return 1)
  else
    let* dv := at_ (v_defaults v) i in
    let* f := at_ (v_in_fmts v) i in
    let* cs := fills v f ps in
    let* fmt := at_ (v_out_fmts v) i in
    let* path := at_ (v_outs v) i in
    Ok (Go ([MaskSetDefault dv; MaskUnusable] ++ cs ++ [MaskSetOutType t] ++
      (if fmt_is fmt SFILE then [MaskOutFile path]
       else if fmt_is fmt GFS && v_mongo v then [MaskOutGfs path (v_inc v) t] else []))).

(** mask_rasterio.cpp:518-655: the data sets from number [i] on; the calls made
    and the return value of an early return. *)
Fixpoint run_sets (v : vars) (masked : bool) (i : nat) (l : list (list bytes)) : outcome (list call * option Z) :=
  match l with
  | [] => Ok ([], None)
  | ps :: rest =>
      let* t0 := at_ (v_types v) i in
      let t := out_type t0 in
      match v_mode v with
      | COM =>
          let* r := combine_set v masked i ps t in
          match r with
          | Return c => Ok ([], Some c)
          | Go a => let* b := run_sets v masked (S i) rest in Ok (a ++ fst b, snd b)
          end
      | UNKNOWNMODE => run_sets v masked (S i) rest
      | _ =>
          let* a := process v masked i ps t in
          let* b := run_sets v masked (S i) rest in Ok (a ++ fst b, snd b)
      end
  end.

(** mask_rasterio.cpp:477-664: the calls and the return value of main. *)
Definition run (v : vars) : outcome (list call * Z) :=
  match load_mask v with
  | Return c => Ok ([SetThreads (v_threads v)], c)
  | Go (masked, cm) =>
      let sub := match v_mode v with MASK => [] | _ => if masked then [MaskBuildSubset] else [] end in
      let* r := run_sets v masked 0 (v_ins v) in
      match snd r with
      | Some c => Ok ([SetThreads (v_threads v)] ++ cm ++ sub ++ fst r, c)
      | None => Ok ([SetThreads (v_threads v)] ++ cm ++ sub ++ fst r
                    ++ (if masked then [DeleteMask] else []) ++ (if v_mongo v then [Disconnect] else []), 0)
      end
  end.

(** mask_rasterio.cpp:278-664. *)
Definition tool (keys : smap (list bytes)) (its : list (list bytes)) : outcome (list call * Z) :=
  let* f := prepare keys its in
  match f with Return c => Ok ([], c) | Go v => run v end.
End Tool.
Arguments vars : clear implicits. Arguments table : clear implicits. Arguments call : clear implicits.
