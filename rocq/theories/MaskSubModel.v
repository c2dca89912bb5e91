(** Masking with a mask that has subsets: the parts of data_raster.hpp:3872-4260
    (MaskAndCalculateValidPosition) that MaskModel.v leaves out. Proof-free.

    Simplifications: as in MaskModel.v and SubsetModel.v; copying a null array is
    undefined as soon as it has elements (the code leaves them uninitialised);
    cell counts are not negative. *)
From Coq Require Import ZArith QArith List Bool.
From Verif Require Import Base RasterModel CoordModel MaskModel SubsetModel.
Import ListNotations.
Open Scope Z_scope.
Open Scope outcome_scope.

(** utils_array.h:357-378 Initialize1DArray from an array: [n] elements are read. *)
Definition copy1d {A} (n : Z) (src : option (list A)) : outcome (option (list A)) :=
  match src with
  | None => if 0 <? n then UB else Ok (Some [])
  | Some l => if Z.of_nat (length l) <? n then UB else Ok (Some (firstn (Z.to_nat n) l))
  end.

(** utils_array.h:413-425 Initialize2DArray from an array: [init_data[0][0]] is
    read first, then [n] rows, each by [row]. *)
Definition copy2d {A} (row : A -> outcome A) (n : Z) (src : option (list A)) : outcome (option (list A)) :=
  let* l := deref src in
  if Z.of_nat (length l) <? Z.max n 1 then UB
  else let* l' := omapm row (firstn (Z.to_nat n) l) in Ok (Some l').

(** utils_array.h:419-423: the columns of one row. *)
Definition copy_row {D} (cols : Z) (row : list D) : outcome (list D) :=
  if Z.of_nat (length row) <? Z.max cols 1 then UB else Ok (firstn (Z.to_nat cols) row).

Section MaskSub.
Context {T M D : Type}.
(** FloatEqual (utils_math.h:140-143) on cells of the raster, of the mask. *)
Variable feq : T -> T -> bool.
(** FloatEqual (utils_math.h:140-143) on cells of the raster, of the mask. *)
Variable feqM : M -> M -> bool.

(** data_raster.cpp:239-261, deep copy, and data_raster.hpp:3974-3975: the copy
    gets the raster's number of layers. *)
Definition CopySubset (lyrs : Z) (s : subset D) : outcome (subset D) :=
  let n := s_n s in
  let* g := copy1d n (s_global s) in
  let* lp := copy2d Ok n (s_lpos s) in
  let* li := copy1d n (s_lidx s) in
  let* d := (if isnull (s_data s) then Ok None else copy1d n (s_data s)) in
  let* d2 := (if isnull (s_data2 s) then Ok None else copy2d (copy_row (s_lyrs s)) n (s_data2 s)) in
  Ok (mkSub (s_usable s) n lyrs (s_srow s) (s_erow s) (s_scol s) (s_ecol s) true lp li g d d2).

(** data_raster.hpp:4196-4206: where the mask cell is found in the new raster and
    its index there; [None] = skipped. *)
Definition check_cell (m : raster M) (r : raster T) (rc : Z * Z) : outcome (option (Z * Z * Z)) :=
  let xy := GetCoordinateByRowCol (geo_of m) (fst rc) (snd rc) in
  let* p := GetPositionXY r (fst xy) (snd xy) in
  if p <? 0 then Ok None
  else
    let tp := GetPositionByCoordinate (geo_of r) (fst xy) (snd xy) in
    let* nd := IsNoData feq r (fst tp) (snd tp) 1 in
    if nd then Ok None
    else let* g := GetPosition r (fst tp) (snd tp) in Ok (Some (tp, g)).

(** data_raster.hpp:4192-4206: the loop over the cells of one subset. *)
Definition found_cells (m : raster M) (ps : list (Z * Z)) (r : raster T) (s : subset D) : outcome (list (Z * Z * Z)) :=
  ofold (fun acc i =>
           let* gl := deref (s_global s) in
           let* gi := aget gl i in
           let* rc := aget ps gi in
           let* c := check_cell m r rc in
           Ok (match c with Some c => acc ++ [c] | None => acc end))
        (zseq (s_n s)) [].

(** data_raster.hpp:4187-4190, 4200-4203: the window of the cells found. *)
Definition found_window (r : raster T) (cs : list (Z * Z * Z)) : Z * Z * Z * Z :=
  fold_left (fun w c =>
    let '(sr, er, sc, ec) := w in let '(row, col, _) := c in
    (if row <? sr then row else sr, if er <? row then row else er,
     if col <? sc then col else sc, if ec <? col then col else ec)) cs (r_rows r, -1, r_cols r, -1).

(** data_raster.hpp:4231-4246: local row, column and index of one cell. *)
Definition local_cell (r : raster T) (srow scol lncols g : Z) : outcome (Z * Z * Z) :=
  let* p := (if isnull (r_pos r) || isnull (r_posidx r) then Ok g
             else let* ix := deref (r_posidx r) in aget ix g) in
  if r_cols r =? 0 then UB
  else
    let lr := Z.quot p (r_cols r) - srow in
    let lc := Z.rem p (r_cols r) - scol in
    Ok (lr, lc, lr * lncols + lc).

(** data_raster.hpp:4212-4250: one subset built anew. *)
Definition rebuild_subset (r : raster T) (s : subset D) (cs : list (Z * Z * Z)) : outcome (subset D) :=
  let '(sr, er, sc, ec) := found_window r cs in
  let* _ := (if s_alloc s then release2d (s_lpos s) else Ok tt) in
  let* ls := omapm (fun c => local_cell r sr sc (ec - sc + 1) (snd c)) cs in
  Ok (mkSub (s_usable s) (Z.of_nat (length cs)) (r_nlyrs r) sr er sc ec true
        (Some (map fst ls)) (Some (map snd ls)) (Some (map snd cs)) None None).

(** data_raster.hpp:4185-4252, one subset: [None] = deleted and erased. *)
Definition check_subset (m : raster M) (ps : list (Z * Z)) (r : raster T) (recalc : bool) (s : subset D)
  : outcome (option (subset D)) :=
  let* cs := found_cells m ps r s in
  match cs with
  | [] => Ok None
  | _ => if recalc then let* s' := rebuild_subset r s cs in Ok (Some s') else Ok (Some s)
  end.

(** data_raster.hpp:4184-4254: all subsets. *)
Definition check_subsets (m : raster M) (ps : list (Z * Z)) (r : raster T) (recalc : bool) (subs : list (Z * subset D))
  : outcome (list (Z * subset D)) :=
  ofold (fun acc ks =>
           let* o := check_subset m ps r recalc (snd ks) in
           Ok (match o with Some s => acc ++ [(fst ks, s)] | None => acc end)) subs [].

(** data_raster.hpp:3872-4260 with a mask whose [subset_] is [msubs]; [rsubs] is
    the raster's own [subset_]. The flags (3985-4062) are computed a second time
    from the same loop. *)
Definition MaskAndCalcSubs (ordm : list nat) (m : raster M) (msubs : list (Z * subset D)) (r : raster T)
    (rsubs : list (Z * subset D)) : outcome (raster T * raster M * bool * Z * list (Z * subset D)) :=
  let* res := MaskAndCalc feq feqM ordm m r in
  let '(r', m', keep, code) := res in
  if (code =? -1) || match msubs with [] => true | _ => false end then Ok (res, rsubs)
  else
    let* mp := mask_positions feqM ordm m in
    let m1 := fst mp in
    let n := fst (snd mp) in
    let* ps := (if n =? 0 then Ok [] else deref (snd (snd mp))) in
    let* st := mask_scan feq m1 r (firstn (Z.to_nat n) ps) in
    let exact := k_matched st =? n in
    let within := (k_maxr st - k_minr st + 1 =? r_rows m1) && (k_maxc st - k_minc st + 1 =? r_cols m1) in
    let recalc := negb exact && rowcol_flag within (r_maskext r) in
    let* copies := omapm (fun ks => let* s := CopySubset (r_nlyrs r) (snd ks) in Ok (fst ks, s)) msubs in
    let* subs := check_subsets m1 ps r' recalc copies in
    Ok (res, subs).
End MaskSub.
