(** What names stand for: which directories and files exist, are made, removed and
    written over. *)
From Coq Require Import ZArith Lia Ascii String List Bool.
From Flocq Require Import BinarySingleNaN.
From Verif Require Import Base ListLib StrModel MapModel FloatModel NumModel FsModel RasterModel AscModel AscSpec AscProofs4 AscProps AscProofs6 PathModel PathSpec PathProofs PathProofs2 PathProofs3 PathProofs4 PathProofs5.
Import ListNotations.
Open Scope Z_scope.

(** * C138: names that exist, and directories made *)

(** GetAbsolutePath gives a name of the same place that holds in every working
    directory; asked again it changes nothing. A name of nothing is given back. *)
Theorem C138_absolute : forall cwd root p, fs_ok root ->
  match resolve false root cwd p with
  | Some q => GetAbsolutePath (os_of cwd root) p = text q /\
      (forall cwd', resolve false root cwd' (GetAbsolutePath (os_of cwd root) p) = Some q /\
        GetAbsolutePath (os_of cwd' root) (GetAbsolutePath (os_of cwd root) p) = GetAbsolutePath (os_of cwd root) p)
  | None => GetAbsolutePath (os_of cwd root) p = p
  end.
Proof.
  intros cwd root p OK. destruct (resolve false root cwd p) as [q|] eqn:E; [|apply abs_none; exact E]. destruct (resolve_kind _ _ _ _ E) as (k & K & S).
  assert (A : GetAbsolutePath (os_of cwd root) p = text q) by (rewrite abs_eq, E; reflexivity). split; [exact A|]. intros cwd'. rewrite A.
  pose proof (resolve_text false root cwd' q k OK K S) as R. split; [exact R|]. rewrite abs_eq, R. reflexivity.
Qed.
Print Assumptions C138_absolute.

(** The three questions, links followed: is it a directory, is it a directory or a
    regular file, is there anything. *)
Theorem C138_exist : forall cwd root p, fs_ok root ->
  (DirectoryExists (os_of cwd root) p = true <-> stat cwd root p = Some KDir) /\
  (PathExists cwd root p = true <-> (stat cwd root p = Some KDir \/ exists c, stat cwd root p = Some (KFile c))) /\
  (FileExists cwd root p = true <-> exists k, stat cwd root p = Some k) /\
  (FileExists cwd root p = true /\ PathExists cwd root p = false <-> stat cwd root p = Some KOther).
Proof.
  intros cwd root p OK. split; [apply dir_exists; exact OK|]. split; [apply path_exists; exact OK|]. split.
  - unfold FileExists. destruct (stat cwd root p) as [k|]; split; eauto; [discriminate|intros (k & X); discriminate].
  - unfold PathExists. rewrite stat_abs by exact OK. unfold FileExists, stat. destruct (resolve false root cwd p) as [q|] eqn:E; [|split; [intros [X _]; discriminate|discriminate]].
    destruct (resolve_kind _ _ _ _ E) as (k & K & S). rewrite K. destruct k; cbn in S; split; try tauto; try (intros [X Y]; discriminate); try discriminate; auto.
Qed.
Print Assumptions C138_exist.

(** MakeDirectory: either the directory was there, or nothing happens and [false] is
    returned, or the one directory named appears, empty, and everything else is as
    it was. After [true] the directory exists and a second call changes nothing. *)
Theorem C138_make : forall cwd may root p b root', fs_ok root -> MakeDirectory cwd may root p = (b, root') ->
  ((b = true /\ root' = root /\ stat cwd root p = Some KDir) \/ (b = false /\ root' = root /\ stat cwd root p <> Some KDir) \/
   (b = true /\ exists q, resolve false root cwd p = None /\ kind_at root q = None /\ may (removelast q) = true /\
      resolve false root' cwd p = Some q /\ only_change root root' q (Some KDir))) /\
  fs_ok root' /\ (b = true -> stat cwd root' p = Some KDir /\ MakeDirectory cwd may root' p = (true, root')).
Proof.
  intros cwd may root p b root' OK E. split; [|split; [eapply make_ok; eauto|intros ->; eapply make_twice; eauto]].
  destruct (make_cases cwd may _ _ _ _ OK E) as [A|[A|(B & q & A1 & A2 & A3 & A4 & A5)]]; [left; exact A|right; left; exact A|right; right]. split; [exact B|]. exists q. auto.
Qed.
Print Assumptions C138_make.

(** A free name in a directory that may be written: it is made. *)
Theorem C138_new : forall cwd may root dp n e, fs_ok root -> dp <> [] -> entry_name n ->
  resolve false root cwd dp = Some e -> kind_at root e = Some KDir -> kind_at root (e ++ [n]) = None -> may e = true ->
  exists root', MakeDirectory cwd may root (in_dir dp n) = (true, root') /\ only_change root root' (e ++ [n]) (Some KDir).
Proof. intros cwd may root dp n e. apply make_new. Qed.
Print Assumptions C138_new.

(** Only one level is made: without the directory above, [false] and no change. *)
Theorem C138_one_level : forall cwd may root dp n, fs_ok root -> dp <> [] -> entry_name n -> stat cwd root dp <> Some KDir ->
  MakeDirectory cwd may root (in_dir dp n) = (false, root).
Proof. intros cwd may root dp n. apply make_no_parent. Qed.
Print Assumptions C138_one_level.

(** A link to nothing: nothing exists under that name, and no directory can be made
    under it. *)
Theorem C138_dangling_refuted : forall cwd may root dp n e t, fs_ok root -> dp <> [] -> entry_name n ->
  resolve false root cwd dp = Some e -> kind_at root (e ++ [n]) = Some (KLink t) -> resolve false root cwd (in_dir dp n) = None ->
  FileExists cwd root (in_dir dp n) = false /\ MakeDirectory cwd may root (in_dir dp n) = (false, root).
Proof.
  intros cwd may root dp n e t OK ND EN RD KL RN. split; [|eapply make_dangling; eauto]. unfold FileExists, stat. rewrite RN. reflexivity.
Qed.
Print Assumptions C138_dangling_refuted.

(** * C139: removing a file *)

(** DeleteExistedFile: -1 and no change, or 0 and exactly what the name stood for is
    gone; a directory with entries never goes. *)
Theorem C139_deleted : forall cwd may root p r root', fs_ok root -> DeleteExistedFile cwd may root p = (r, root') ->
  fs_ok root' /\
  ((r = -1 /\ root' = root) \/
   (r = 0 /\ FileExists cwd root' p = false /\ exists q, resolve false root cwd p = Some q /\ only_change root root' q None /\ (forall x, get root q = Some x -> leaf x))).
Proof.
  intros cwd may root p r root' OK E. split; [eapply delete_ok; eauto|].
  destruct (delete_cases cwd may _ _ _ _ OK E) as [A|(R & q & A & B & C & D)]; [left; exact A|right]. split; [exact R|]. split; [unfold FileExists, stat; rewrite D; reflexivity|]. exists q. split; [exact A|]. split; [exact B|exact C].
Qed.
Print Assumptions C139_deleted.

(** A file in a directory that may be written goes. *)
Theorem C139_when : forall cwd may root p q k, fs_ok root -> resolve false root cwd p = Some q -> kind_at root q = Some k -> k <> KDir -> may (removelast q) = true ->
  exists root', DeleteExistedFile cwd may root p = (0, root') /\ only_change root root' q None.
Proof. intros cwd may root p q k. apply delete_file. Qed.
Print Assumptions C139_when.

(** A link is not removed: the file it leads to goes and the link stays, now leading
    nowhere. remove(3) itself would take the link. *)
Theorem C139_link_refuted : forall cwd may root dp n e t q k, fs_ok root -> dp <> [] -> entry_name n ->
  resolve false root cwd dp = Some e -> kind_at root (e ++ [n]) = Some (KLink t) ->
  resolve false root cwd (in_dir dp n) = Some q -> kind_at root q = Some k -> k <> KDir -> may (removelast q) = true ->
  exists root', DeleteExistedFile cwd may root (in_dir dp n) = (0, root') /\ kind_at root' q = None /\ kind_at root' (e ++ [n]) = Some (KLink t).
Proof. intros cwd may root dp n e t q k. apply delete_link. Qed.
Print Assumptions C139_link_refuted.

(** So a second call cannot clear the name: a link to nothing stays. *)
Theorem C139_dangling_refuted : forall cwd may root p, fs_ok root -> resolve false root cwd p = None -> DeleteExistedFile cwd may root p = (-1, root).
Proof. intros cwd may root p OK R. rewrite delete_eq, R by exact OK. reflexivity. Qed.
Print Assumptions C139_dangling_refuted.

(** And an empty directory is removed as if it were a file. *)
Theorem C139_directory_refuted : forall cwd may root p q, fs_ok root -> resolve false root cwd p = Some q -> get root q = Some (TDir []) -> q <> [] -> may (removelast q) = true ->
  exists root', DeleteExistedFile cwd may root p = (0, root') /\ only_change root root' q None.
Proof. intros cwd may root p q. apply delete_empty_dir. Qed.
Print Assumptions C139_directory_refuted.

(** * C140: writing an ASC file over another *)

(** The name is free, or is that of a file, in a directory that may be written: the
    file holds the two texts written and nothing of the old content, and nothing else
    changed. Both writers. *)
Theorem C140_replaced : forall cwd may may_write root p q t1 t2, fs_ok root -> resolve true root cwd p = Some q ->
  (kind_at root q = None \/ exists o, kind_at root q = Some (KFile o)) -> may (removelast q) = true -> may_write q = true ->
  (exists root', OutputAscFile1 cwd may may_write root p t1 t2 = Some root' /\ resolve false root' cwd p = Some q /\ only_change root root' q (Some (KFile (t1 ++ t2)))) /\
  (exists root', WriteSingleAsc cwd may may_write root p t1 t2 = Some root' /\ resolve false root' cwd p = Some q /\ only_change root root' q (Some (KFile (t1 ++ t2)))).
Proof.
  intros cwd may may_write root p q t1 t2 OK R KQ M MW. split.
  - destruct (pair_written cwd may may_write root p q p t1 t2 OK R KQ M MW (or_introl eq_refl)) as (root1 & root' & E1 & E2 & E3 & E4).
    exists root'. unfold OutputAscFile1. rewrite E1. auto.
  - destruct (pair_written cwd may may_write root p q _ t1 t2 OK R KQ M MW (or_intror eq_refl)) as (root1 & root' & E1 & E2 & E3 & E4).
    exists root'. rewrite single_eq; [rewrite E1; auto|exact OK| |eauto]. unfold stat. destruct (resolve_true_kind cwd root p q R) as [[_ R0]|(_ & R0 & _)]; rewrite R0; [|discriminate].
    destruct KQ as [-> |(o & ->)]; discriminate.
Qed.
Print Assumptions C140_replaced.

(** The file may be written but not removed (its directory may not be written): the
    writers still succeed, and the old content stays in front of the new. *)
Theorem C140_kept_refuted : forall cwd may may_write root p q o t1 t2, fs_ok root -> resolve false root cwd p = Some q ->
  kind_at root q = Some (KFile o) -> may (removelast q) = false -> may_write q = true ->
  (exists root', OutputAscFile1 cwd may may_write root p t1 t2 = Some root' /\ resolve false root' cwd p = Some q /\ only_change root root' q (Some (KFile (o ++ t1 ++ t2)))) /\
  (exists root', WriteSingleAsc cwd may may_write root p t1 t2 = Some root' /\ resolve false root' cwd p = Some q /\ only_change root root' q (Some (KFile (o ++ t1 ++ t2)))).
Proof.
  intros cwd may may_write root p q o t1 t2 OK R KQ M MW. split.
  - destruct (pair_kept cwd may may_write root p q p o t1 t2 OK R KQ M MW (or_introl eq_refl)) as (root1 & root' & E1 & E2 & E3 & E4).
    exists root'. unfold OutputAscFile1. rewrite E1. auto.
  - destruct (pair_kept cwd may may_write root p q _ o t1 t2 OK R KQ M MW (or_intror eq_refl)) as (root1 & root' & E1 & E2 & E3 & E4).
    exists root'. rewrite single_eq; [rewrite E1; auto|exact OK| |]. { unfold stat. rewrite R, KQ. discriminate. }
    exists q. destruct p as [|c p]; [discriminate|]. rewrite resolve_eq in * by discriminate. exact (walk_false_true _ _ _ _ _ R).
Qed.
Print Assumptions C140_kept_refuted.

(** What comes of it: a grid written so over another one cannot be read back. With as
    many cells as the old one the reader returns [false]; with another number of
    cells it writes outside its array. *)
Theorem C140_unreadable_refuted : forall {T} (show : T -> bytes) (cast : f64 -> outcome T) cwd may may_write root p q o t1 t2
    h1 cols1 rows1 x1 y1 cs1 nd1 vals1 h2 cols2 rows2 x2 y2 cs2 nd2 vals2 fuel h,
  fs_ok root -> resolve false root cwd p = Some q -> kind_at root q = Some (KFile o) -> may (removelast q) = false -> may_write q = true ->
  header_shows h1 cols1 rows1 x1 y1 cs1 nd1 -> grid_size rows1 cols1 -> Z.of_nat (length vals1) = rows1 * cols1 ->
  ordinary x1 -> ordinary y1 -> cell_size cs1 -> is_finite nd1 = true -> (forall nd', reread nd1 nd' -> exists w, cast nd' = Ok w) -> Forall (readable show cast) vals1 ->
  header_shows h2 cols2 rows2 x2 y2 cs2 nd2 -> grid_size rows2 cols2 -> Z.of_nat (length vals2) = rows2 * cols2 ->
  ordinary x2 -> ordinary y2 -> cell_size cs2 -> is_finite nd2 = true -> Forall (readable show cast) vals2 ->
  AscModel.WriteSingleAsc show true true h1 (Some vals1) = Ok (Some o) -> AscModel.WriteSingleAsc show true true h2 (Some vals2) = Ok (Some (t1 ++ t2)) ->
  exists root' c, WriteSingleAsc cwd may may_write root p t1 t2 = Some root' /\ stat cwd root' p = Some (KFile c) /\
    ((length c < fuel)%nat -> ReadAscFile cast fuel (Some {| content := c; read_error := false |}) h None =
      Some (if rows1 * cols1 =? rows2 * cols2 then Ok (false, h, None) else UB)).
Proof.
  intros T show cast cwd may may_write root p q o t1 t2 h1 cols1 rows1 x1 y1 cs1 nd1 vals1 h2 cols2 rows2 x2 y2 cs2 nd2 vals2 fuel h OK R KQ M MW
    A1 A2 A3 A4 A5 A6 A7 A8 A9 B1 B2 B3 B4 B5 B6 B7 B9 W1 W2.
  destruct (C140_kept_refuted cwd may may_write root p q o t1 t2 OK R KQ M MW) as [_ (root' & E & R' & [KQ' _])].
  exists root', (o ++ t1 ++ t2). split; [exact E|]. split; [unfold stat; rewrite R'; exact KQ'|]. intros FU. eapply (written_twice show cast h1 cols1 rows1 x1 y1 cs1 nd1 vals1 o h2 cols2 rows2 x2 y2 cs2 nd2 vals2); eassumption.
Qed.
Print Assumptions C140_unreadable_refuted.

(** A missing directory: WriteSingleAsc makes it if it is the only one missing;
    OutputAscFile of a raster fails. *)
Theorem C140_new_dir : forall cwd may may_write root dp n1 n2 e t1 t2, fs_ok root -> dp <> [] -> entry_name n1 -> entry_name n2 ->
  resolve false root cwd dp = Some e -> kind_at root e = Some KDir -> kind_at root (e ++ [n1]) = None ->
  may e = true -> may (e ++ [n1]) = true -> may_write (e ++ [n1; n2]) = true ->
  OutputAscFile1 cwd may may_write root (in_dir (in_dir dp n1) n2) t1 t2 = None /\
  exists root', WriteSingleAsc cwd may may_write root (in_dir (in_dir dp n1) n2) t1 t2 = Some root' /\
    kind_at root' (e ++ [n1]) = Some KDir /\ kind_at root' (e ++ [n1; n2]) = Some (KFile (t1 ++ t2)) /\
    (forall x, x <> e ++ [n1] -> x <> e ++ [n1; n2] -> kind_at root' x = kind_at root x).
Proof. intros cwd may may_write root dp n1 n2 e t1 t2. apply single_new_dir. Qed.
Print Assumptions C140_new_dir.

(** * C141: the directory of the program *)

(** Names put behind GetAppPath stand for files beside the program, whatever the
    working directory is. *)
Theorem C141_beside : forall create root cwd d n rel, fs_ok root -> kind_at root d = Some KDir -> entry_name n -> Z.of_nat (length (text (d ++ [n]))) < 4096 ->
  rel <> [] -> absolute rel = false ->
  GetAppPath (Some (text (d ++ [n]))) = dir_text d /\
  resolve create root cwd (GetAppPath (Some (text (d ++ [n]))) ++ rel) = resolve create root d rel.
Proof.
  intros create root cwd d n rel OK K N L NE A. rewrite app_path by assumption. split; [reflexivity|]. apply resolve_dir; assumption.
Qed.
Print Assumptions C141_beside.

(** When the operating system does not tell, or the name has 4096 bytes or more, they
    stand for files in the working directory instead, and nothing is reported. *)
Theorem C141_unknown_refuted : forall exe create root cwd rel,
  (exe = None \/ exists b, exe = Some b /\ 4096 <= Z.of_nat (length b)) ->
  GetAppPath exe = [] /\ resolve create root cwd (GetAppPath exe ++ rel) = resolve create root cwd rel.
Proof.
  intros exe create root cwd rel H. assert (E : GetAppPath exe = []); [|rewrite E; auto]. unfold GetAppPath. destruct H as [-> |(b & -> & L)]; [reflexivity|].
  replace (4096 <=? Z.of_nat (length b)) with true by lia. reflexivity.
Qed.
Print Assumptions C141_unknown_refuted.

(** * Examples *)

(** /w: a file, links to a file, to a directory and to nothing, a pipe, an empty
    directory; /r, which may not be written: one grid. *)
Definition grid_two : bytes := ex_text ++ str "1 2 " ++ newline ++ str "3 4 " ++ newline ++ newline.
Definition ex_tree : tree :=
  TDir [(str "w", TDir [(str "old.asc", TFile (str "x")); (str "lnk.asc", TLink (str "data/a.asc")); (str "cur", TLink (str "../w/data"));
                        (str "gone", TLink (str "nowhere")); (str "pipe", TOther); (str "e", TDir []); (str "data", TDir [(str "a.asc", TFile (str "a"))])]);
        (str "r", TDir [(str "b.asc", TFile grid_two)])].
Definition ex_cwd : place := [str "w"].
Definition ex_may (d : place) : bool := match d with n :: _ => negb (beqb n (str "r")) | [] => false end.
Definition ex_write (q : place) : bool := true.

Lemma ex_tree_ok : fs_ok ex_tree.
Proof. apply good_ok. vm_compute. reflexivity. Qed.

Example C138_ex :
  GetAbsolutePath (os_of ex_cwd ex_tree) (str "cur/.././data//a.asc") = str "/w/data/a.asc" /\
  DirectoryExists (os_of ex_cwd ex_tree) (str "cur") = true /\ PathExists ex_cwd ex_tree (str "lnk.asc") = true /\
  FileExists ex_cwd ex_tree (str "pipe") = true /\ PathExists ex_cwd ex_tree (str "pipe") = false /\ FileExists ex_cwd ex_tree (str "gone") = false /\
  fst (MakeDirectory ex_cwd ex_may ex_tree (str "cur/sub/")) = true /\
  kind_at (snd (MakeDirectory ex_cwd ex_may ex_tree (str "cur/sub/"))) [str "w"; str "data"; str "sub"] = Some KDir /\
  fst (MakeDirectory ex_cwd ex_may ex_tree (str "a/b")) = false /\ fst (MakeDirectory ex_cwd ex_may ex_tree (str "gone")) = false /\
  fst (MakeDirectory ex_cwd ex_may ex_tree (str "../r/x")) = false.
Proof. repeat split; vm_compute; reflexivity. Qed.

Example C139_ex :
  fst (DeleteExistedFile ex_cwd ex_may ex_tree (str "old.asc")) = 0 /\ kind_at (snd (DeleteExistedFile ex_cwd ex_may ex_tree (str "old.asc"))) [str "w"; str "old.asc"] = None /\
  fst (DeleteExistedFile ex_cwd ex_may ex_tree (str "data")) = -1 /\ fst (DeleteExistedFile ex_cwd ex_may ex_tree (str "gone")) = -1 /\
  fst (DeleteExistedFile ex_cwd ex_may ex_tree (str "/r/b.asc")) = -1 /\ fst (DeleteExistedFile ex_cwd ex_may ex_tree (str "e")) = 0 /\
  (let t := snd (DeleteExistedFile ex_cwd ex_may ex_tree (str "lnk.asc")) in
   kind_at t [str "w"; str "lnk.asc"] = Some (KLink (str "data/a.asc")) /\ kind_at t [str "w"; str "data"; str "a.asc"] = None /\ FileExists ex_cwd t (str "lnk.asc") = false).
Proof. repeat split; vm_compute; reflexivity. Qed.

Definition text_at (t : option tree) (p : place) : option kind := match t with Some x => kind_at x p | None => None end.
Example C140_ex :
  text_at (OutputAscFile1 ex_cwd ex_may ex_write ex_tree (str "old.asc") (str "h") (str "c")) [str "w"; str "old.asc"] = Some (KFile (str "hc")) /\
  text_at (WriteSingleAsc ex_cwd ex_may ex_write ex_tree (str "new.asc") (str "h") (str "c")) [str "w"; str "new.asc"] = Some (KFile (str "hc")) /\
  text_at (WriteSingleAsc ex_cwd ex_may ex_write ex_tree (str "lnk.asc") (str "h") (str "c")) [str "w"; str "data"; str "a.asc"] = Some (KFile (str "hc")) /\
  text_at (WriteSingleAsc ex_cwd ex_may ex_write ex_tree (str "cur/n/x.asc") (str "h") (str "c")) [str "w"; str "data"; str "n"; str "x.asc"] = Some (KFile (str "hc")) /\
  OutputAscFile1 ex_cwd ex_may ex_write ex_tree (str "cur/n/x.asc") (str "h") (str "c") = None /\
  text_at (WriteSingleAsc ex_cwd ex_may ex_write ex_tree (str "/r/b.asc") (str "h") (str "c")) [str "r"; str "b.asc"] = Some (KFile (grid_two ++ str "hc")).
Proof. repeat split; vm_compute; reflexivity. Qed.

(** The grid of /r, written over with another of as many cells, and with a smaller one. *)
Definition small_header : smap f64 :=
  [(str "NCOLS", of_int 3); (str "NROWS", of_int 1); (str "XLLCENTER", of_int 0); (str "YLLCENTER", of_int 3); (str "CELLSIZE", of_int 10); (str "NODATA_VALUE", of_int (-9))].
Definition written (h : smap f64) (vals : list Z) : bytes := match AscModel.WriteSingleAsc show_int true true h (Some vals) with Ok (Some t) => t | _ => [] end.
Definition read_over (t : bytes) : option (outcome (bool * smap f64 * option (list Z))) :=
  match text_at (WriteSingleAsc ex_cwd ex_may ex_write ex_tree (str "/r/b.asc") [] t) [str "r"; str "b.asc"] with
  | Some (KFile c) => ReadAscFile cast_int32 200 (Some {| content := c; read_error := false |}) [] None | _ => None end.
Example C140_read_ex : AscModel.WriteSingleAsc show_int true true ex_header (Some [1; 2; 3; 4]) = Ok (Some grid_two) /\
  ex_may [str "r"] = false /\ header_shows small_header 3 1 (of_int 0) (of_int 3) (of_int 10) (of_int (-9)) /\ Forall (readable show_int cast_int32) [1; 2; 3; 4] /\
  read_over (written ex_header [5; 6; 7; 8]) = Some (Ok (false, [], None)) /\ read_over (written small_header [5; 6; 7]) = Some UB.
Proof.
  split; [vm_compute; reflexivity|]. split; [reflexivity|]. split; [repeat split; reflexivity|].
  split; [repeat constructor; apply int_readable; unfold in_int, INT_MIN, INT_MAX; lia|]. split; vm_compute; reflexivity.
Qed.

Example C141_ex : GetAppPath (Some (str "/w/data/tool")) = str "/w/data/" /\
  resolve false ex_tree [] (GetAppPath (Some (str "/w/data/tool")) ++ str "../old.asc") = Some [str "w"; str "old.asc"] /\
  resolve false ex_tree [] (GetAppPath None ++ str "../old.asc") = None /\ kind_at ex_tree [str "w"; str "data"] = Some KDir.
Proof. repeat split; vm_compute; reflexivity. Qed.
