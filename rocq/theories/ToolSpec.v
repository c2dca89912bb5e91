(** Vocabulary for the properties of the raster tool as a whole. *)
From Coq Require Import ZArith Ascii String List Bool.
From Verif Require Import Base StrModel StrSpec MapModel FsModel BasicModel SubsetModel AppModel AppSpec ToolModel.
Import ListNotations.
Open Scope Z_scope.

(** A list with some elements left out. *)
Inductive sublist {A} : list A -> list A -> Prop :=
| sub_nil : sublist [] []
| sub_skip x l m : sublist l m -> sublist l (x :: m)
| sub_keep x l m : sublist l m -> sublist (x :: l) (x :: m).

(** One data set: where it comes from, where it goes, and what is done to it. *)
Record job (V : Type) := mkJob {
  j_infmt : datafmt; j_ins : list bytes; j_outfmt : datafmt; j_out : bytes;
  j_default : V; j_upd : bool; j_nodata : V; j_type : rdt; j_recls : bool; j_table : table V }.
Arguments mkJob {V}. Arguments j_infmt {V}. Arguments j_ins {V}. Arguments j_outfmt {V}. Arguments j_out {V}.
Arguments j_default {V}. Arguments j_upd {V}. Arguments j_nodata {V}. Arguments j_type {V}. Arguments j_recls {V}. Arguments j_table {V}.

(** The vectors of the program hold the data sets [js], one entry each. *)
Definition holds {V} (v : vars V) (js : list (job V)) : Prop :=
  v_in_fmts v = map j_infmt js /\ v_ins v = map j_ins js /\ v_out_fmts v = map j_outfmt js /\ v_outs v = map j_out js /\
  v_defaults v = map j_default js /\ v_upds v = map j_upd js /\ v_nodatas v = map j_nodata js /\
  v_types v = map j_type js /\ v_reclss v = map j_recls js /\ v_tables v = map j_table js.

(** Fields of a data item [in1,in2,...;out;default;nodata;type;table]. *)
Definition item_ins (it : list bytes) : list bytes := SplitString_d (nth 0 it []) ",".
Definition item_out (it : list bytes) : bytes := nth 1 it [].
(** The number a text stands for, if it is one. *)
Definition number_of {V} (strtod : bytes -> V * nat) (s : bytes) : option V :=
  match s with
  | [] => None
  | _ => if Nat.eqb (snd (strtod s)) (length s) then Some (fst (strtod s)) else None
  end.
Definition or_else {A} (o : option A) (a : A) : A := match o with Some x => x | None => a end.
Definition is_some {A} (o : option A) : bool := match o with Some _ => true | None => false end.

(** What an item says about its data set; [ty] is the type given for all. *)
Definition says {V} (strtod : bytes -> V * nat) (nodata : V) (ty : rdt) (it : list bytes) (j : job V) : Prop :=
  j_ins j = item_ins it /\ j_out j = item_out it /\
  j_default j = or_else (number_of strtod (nth 2 it [])) nodata /\
  j_upd j = is_some (number_of strtod (nth 3 it [])) /\
  j_nodata j = or_else (number_of strtod (nth 3 it [])) nodata /\
  j_type j = match nth_error it 4 with
             | None => RDT_Unknown
             | Some s => match StringToRasterDataType s with RDT_Unknown => ty | t => t end
             end /\
  (j_table j, j_recls j) = match nth_error it 5 with None => ([], false) | Some s => parse_key_values strtod s end.

(** Items that say nothing: no input and no output. *)
Definition blank (it : list bytes) : bool :=
  match it with [] => true | _ =>
  match item_out it, item_ins it with
  | [], [[]] => true
  | [], [] => Nat.eqb (length it) 1
  | _, _ => false
  end end.

(** The value given for an option that has two names: the second one counts. *)
Definition given2 (keys : smap (list bytes)) (a b : string) : option (list bytes) :=
  match lookup keys (str b) with Some l => Some l | None => lookup keys (str a) end.

(** An option the program does not stop at. *)
Definition accepted (ex : bytes -> bool) (kv : bytes * list bytes) : Prop :=
  snd kv <> [] /\
  (fst kv = str "MODE" -> StringToIOMode (hd [] (snd kv)) <> UNKNOWNMODE) /\
  (fst kv = str "IN" \/ fst kv = str "INPUT" -> exists p, parse_fmt_paths ex (str "IN") (snd kv) = Ok (Some p)) /\
  (fst kv = str "MASK" -> exists f p ps, parse_fmt_paths ex (str "MASK") (snd kv) = Ok (Some (f, p :: ps))) /\
  (fst kv = str "OUT" \/ fst kv = str "OUTPUT" -> exists p, parse_fmt_paths ex (str "OUT") (snd kv) = Ok p) /\
  (fst kv = str "MONGO" \/ fst kv = str "MONGODB" -> (4 <= length (snd kv))%nat).

(** Whether an item comes with a table that can be read. *)
Definition has_table {V} (strtod : bytes -> V * nat) (it : list bytes) : bool :=
  snd (match nth_error it 5 with None => ([], false) | Some s => parse_key_values strtod s end).

(** Mode, number of threads, mask file and type that the options ask for. *)
Definition mode_of (keys : smap (list bytes)) : iomode :=
  match lookup keys (str "MODE") with Some l => StringToIOMode (hd [] l) | None => MASK end.
Definition threads_of (keys : smap (list bytes)) : Z :=
  match lookup keys (str "THREAD") with Some l => let (n, ok) := IsInt (hd [] l) in if ok then n else 1 | None => 1 end.
Definition mask_of (ex : bytes -> bool) (keys : smap (list bytes)) : option bytes :=
  match lookup keys (str "MASK") with
  | Some l => match parse_fmt_paths ex (str "MASK") l with
              | Ok (Some (SFILE, p :: _)) => match p with [] => None | _ => if ex p then Some p else None end
              | _ => None
              end
  | None => None
  end.
Definition type_of (keys : smap (list bytes)) : rdt :=
  match lookup keys (str "OUTDATATYPE") with Some l => StringToRasterDataType (hd [] l) | None => RDT_Unknown end.

(** Calls for one data set that is read from files and written to files. *)
Definition file_calls {V} (m : iomode) (masked : bool) (j : job V) : list (call V) :=
  [InitFiles (j_ins j) masked (j_default j); SetOutType (match j_type j with RDT_Unknown => RDT_Double | t => t end)] ++
  (if j_upd j then [ReplaceNoData (j_nodata j)] else []) ++
  (if j_recls j then [BuildSubset] else []) ++
  (match m with DEC | MASKDEC => [if j_recls j then OutSubsetFile false (j_out j) (j_table j) (j_default j) else OutFile (j_out j) false] | _ => [] end) ++
  (match m with MASK | MASKDEC => [if j_recls j then OutSubsetFile true (j_out j) (j_table j) (j_default j) else OutFile (j_out j) true] | _ => [] end) ++
  [Delete].
(** Calls before and after the data sets. *)
Definition open_calls {V} (n : Z) (m : iomode) (mask : option bytes) : list (call V) :=
  SetThreads n :: match mask with Some p => InitMask SFILE p :: match m with MASK => [] | _ => [MaskBuildSubset] end | None => [] end.
Definition close_calls {V} (mask : option bytes) : list (call V) := match mask with Some _ => [DeleteMask] | None => [] end.

(** The values given under two names. *)
Definition both (keys : smap (list bytes)) (a b : string) : list (list bytes) :=
  match lookup keys (str a) with Some l => [l] | None => [] end ++ match lookup keys (str b) with Some l => [l] | None => [] end.
(** What the options say about their own data set. *)
Definition options_say {V} (strtod : bytes -> V * nat) (nd : V) (o : os) (ex : bytes -> bool) (keys : smap (list bytes)) (j : job V) : Prop :=
  (exists vals, (lookup keys (str "IN") = Some vals \/ lookup keys (str "INPUT") = Some vals) /\
     parse_fmt_paths ex (str "IN") vals = Ok (Some (j_infmt j, j_ins j)) /\ j_ins j <> []) /\
  j_out j = match flat_map (fun vals => match parse_fmt_paths ex (str "OUT") vals with Ok (Some (_, p :: _)) => [p] | _ => [] end) (both keys "OUT" "OUTPUT") with
            | p :: _ => p
            | [] => default_out o (hd [] (j_ins j)) (match j_ins j with [_] => false | _ => true end)
            end /\
  j_default j = match given2 keys "DEFAULT" "DEFAULTVALUE" with Some l => number_or_nodata strtod nd (hd [] l) | None => nd end /\
  j_upd j = is_some (given2 keys "NODATA" "NODATAVALUE") /\
  j_nodata j = match given2 keys "NODATA" "NODATAVALUE" with Some l => number_or_nodata strtod nd (hd [] l) | None => nd end /\
  j_type j = match lookup keys (str "OUTDATATYPE") with Some l => StringToRasterDataType (hd [] l) | None => RDT_Unknown end /\
  (j_table j, j_recls j) = match lookup keys (str "RECLASS") with Some l => parse_key_values strtod (hd [] l) | None => ([], false) end.


(** The subset a file belongs to: the number before the first underscore of its name. *)
Definition id_of (o : os) (p : bytes) : option Z :=
  match SplitString_d (GetCoreFileName o p) "_" with
  | s :: _ => let (id, ok) := IsInt s in if ok then Some id else None
  | [] => None
  end.
(** Calls for one file, and for one data set, when combining. *)
Definition fill_calls {V} (o : os) (ids : list Z) (readable : bytes -> bool) (p : bytes) : list (call V) :=
  match id_of o p with
  | Some id => if existsb (Z.eqb id) ids && readable p then [SubFromFile id p] else []
  | None => []
  end.
Definition com_calls {V} (o : os) (ids : list Z) (readable : bytes -> bool) (j : job V) : list (call V) :=
  [MaskSetDefault (j_default j); MaskUnusable] ++ flat_map (fill_calls o ids readable) (j_ins j) ++
  [MaskSetOutType (match j_type j with RDT_Unknown => RDT_Double | t => t end); MaskOutFile (j_out j)].

(** Whether the options name a mask that can be used. *)
Definition masked_by (ex : bytes -> bool) (keys : smap (list bytes)) : bool := is_some (mask_of ex keys).
(** The files given with -in, if any, exist and can be read. *)
Definition in_ready {V} (ex : bytes -> bool) (files_ok : list bytes -> bool -> V -> outcome bool) (masked : bool) (keys : smap (list bytes)) : Prop :=
  match lookup keys (str "IN") with
  | Some l => exists ps, parse_fmt_paths ex (str "IN") l = Ok (Some (SFILE, ps)) /\ FilesExist ex ps = true /\ (forall dv, files_ok ps masked dv = Ok true)
  | None => True
  end.
(** The data set of the options: one if -in is given, and none otherwise. *)
Definition first_says {V} (strtod : bytes -> V * nat) (nd : V) (o : os) (ex : bytes -> bool) (keys : smap (list bytes)) (first : list (job V)) : Prop :=
  match lookup keys (str "IN"), first with
  | None, [] => True
  | Some _, [j] => options_say strtod nd o ex keys j /\ FilesExist ex (j_ins j) = true /\ j_infmt j = SFILE /\ j_outfmt j = SFILE
  | _, _ => False
  end.
(** Every key once, with at least one value. *)
Definition keys_good (m : smap (list bytes)) : Prop := NoDup (map fst m) /\ Forall (fun kv => snd kv <> []) m.
(** A subset that holds no data of its own. *)
Definition empty_sub {D} (ks : Z * subset D) : Prop := s_data (snd ks) = None /\ s_data2 (snd ks) = None.
(** The keys and values are the same except under some names. *)
Definition agree_but (names : list string) (k1 k2 : smap (list bytes)) : Prop :=
  forall k, ~ In k (map str names) -> lookup k1 k = lookup k2 k.
(** Calls that write nothing but the data subsets hold themselves. *)
Definition only_subset_output {V} (c : call V) : Prop :=
  match c with
  | OutFile _ origin => origin = false
  | BuildSubset | OutSubsetFile _ _ _ _ | OutSubsetGfs _ _ _ _ _ _ | OutGfs _ _ _ | MaskOutFile _ | MaskOutGfs _ _ _ => False
  | _ => True
  end.
