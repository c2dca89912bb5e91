(** Masking: data_raster.hpp:3872-4260, MaskAndCalculateValidPosition, for a
    raster with a mask. The raster is the freshly read source, [m] the mask.

    Simplifications: the mask has no subsets (the subset parts 3969-3983 and
    4184-4250 are in MaskSubModel.v); coordinates are exact rationals; the
    spatial reference text is not represented; a failing [assert] is the outcome
    [Throw]; FloatEqual of the default value (a double) is taken after its
    conversion to [T]. Cell values [M] of the mask may have another type. *)
From Coq Require Import ZArith QArith List Bool.
From Verif Require Import Base RasterModel CoordModel.
Import ListNotations.
Open Scope Z_scope.
Open Scope outcome_scope.

Section Mask.
Context {T M : Type}.
(** FloatEqual (utils_math.h:140-143) on cells of the raster, of the mask. *)
Variable feq : T -> T -> bool.
(** FloatEqual (utils_math.h:140-143) on cells of the raster, of the mask. *)
Variable feqM : M -> M -> bool.

(** data_raster.hpp:3917, 3940: are there values besides layer 1? *)
Definition many (r : raster T) : bool := r_is2d r && (1 <? r_nlyrs r).

(** Local variables of the loop 3909-3956. [k_cells] collects [pos_rows],
    [pos_cols], [values] and [values_2d] (layer 1 first) of the cells seen.
    In data_raster.hpp:3899-3956. *)
Record mstate : Type := mkMs {
  k_r : raster T; k_cells : list (vcell T);
  k_minr : Z; k_maxr : Z; k_minc : Z; k_maxc : Z;
  k_masked : Z; k_matched : Z
}.

(** data_raster.hpp:3940-3949: layers 2 .. n of one source cell. A replaced
    value is written back with layer number [lyr - 1]. *)
Definition mask_layers (r : raster T) (pr pc : Z) : outcome (raster T * list T) :=
  ofold (fun st k =>
           let lyr := k + 1 in
           let* v := GetValue (fst st) pr pc (lyr + 1) in
           if feq v (r_nodata r) && negb (feq (r_default r) (r_nodata r)) then
             let* r' := SetValue (fst st) pr pc (r_default r) (lyr - 1) in
             Ok (r', snd st ++ [r_default r])
           else Ok (fst st, snd st ++ [v]))
        (zseq (r_nlyrs r - 1)) (r, []).

(** data_raster.hpp:3909-3956, one mask cell. *)
Definition mask_cell (m : raster M) (st : mstate) (rc : Z * Z) : outcome mstate :=
  let r := k_r st in
  let row := fst rc in let col := snd rc in
  let xy := GetCoordinateByRowCol (geo_of m) row col in
  let pos := GetPositionByCoordinate (geo_of r) (fst xy) (snd xy) in
  let pr := fst pos in let pc := snd pos in
  if (pr =? -1) || (pc =? -1) then
    let vals := r_nodata r :: (if many r then repeat (r_nodata r) (Z.to_nat (r_nlyrs r - 1)) else []) in
    Ok (mkMs r (k_cells st ++ [mkVcell row col vals])
             (k_minr st) (k_maxr st) (k_minc st) (k_maxc st) (k_masked st) (k_matched st))
  else
    let* v := GetValue r pr pc 1 in
    let hit := negb (feq v (r_nodata r)) in
    let subst := feq v (r_nodata r) && negb (feq (r_default r) (r_nodata r)) in
    let v' := if subst then r_default r else v in
    let* r1 := (if subst then SetValue r pr pc v' 1 else Ok r) in
    let* rest := (if many r then mask_layers r1 pr pc else Ok (r1, [])) in
    Ok (mkMs (fst rest) (k_cells st ++ [mkVcell row col (v' :: snd rest)])
             (if hit && (row <? k_minr st) then row else k_minr st)
             (if hit && (k_maxr st <? row) then row else k_maxr st)
             (if hit && (col <? k_minc st) then col else k_minc st)
             (if hit && (k_maxc st <? col) then col else k_maxc st)
             (k_masked st + 1) (k_matched st + (if hit then 1 else 0))).

(** data_raster.hpp:3896-3956: the loop over the mask's valid cells. *)
Definition mask_scan (m : raster M) (r : raster T) (ps : list (Z * Z)) : outcome mstate :=
  ofold (mask_cell m) ps (mkMs r [] (r_rows m) (-1) (r_cols m) (-1) 0 0).

(** data_raster.hpp:3894-3895: the mask with positions, their number and array.
    [ordm]: order of the parallel loop if positions are calculated now. *)
Definition mask_positions (ordm : list nat) (m : raster M) : outcome (raster M * (Z * option (list (Z * Z)))) :=
  let* m1 := (if r_calc m then Ok m
              else let* p := SetCalcPositions feqM ordm m in Ok (fst p)) in
  GetRasterPositionData feqM ordm m1.

(** data_raster.hpp:4004-4059, the flags. *)
Definition recalc_flag (within useext calc exact : bool) : bool :=
  if within || useext then calc && negb exact else calc.
(** data_raster.hpp:4004-4059. *)
Definition validnum_flag (within useext calc exact : bool) : bool :=
  if within then
    if useext then calc && negb exact
    else if calc then negb exact else true
  else if useext then calc && negb exact
  else true.
(** data_raster.hpp:4004-4059. *)
Definition fullsize_flag (within useext calc : bool) : bool :=
  negb within && negb useext && negb calc.
(** data_raster.hpp:4004-4059. *)
Definition rowcol_flag (within useext : bool) : bool := negb within && negb useext.
(** data_raster.hpp:4004-4059. *)
Definition calc_flag (within useext calc : bool) : bool :=
  if within || useext then true else calc.

(** data_raster.hpp:4082-4085 and 4159: outside the extent of the matches. *)
Definition outside_box (st : mstate) (c : vcell T) : bool :=
  (k_maxr st <? vc_row c) || (vc_row c <? k_minr st) || (k_maxc st <? vc_col c) || (vc_col c <? k_minc st).

(** data_raster.hpp:4076-4105: drop cells, shift the positions of the others. *)
Definition keep_cells (nd : T) (st : mstate) : list (vcell T) :=
  map (fun c => mkVcell (vc_row c - k_minr st) (vc_col c - k_minc st) (vc_vals c))
      (filter (fun c => negb (outside_box st c || match vc_vals c with v :: _ => feq v nd | [] => false end))
              (k_cells st)).

(** data_raster.hpp:4167-4176: the values of one cell are written at [idx]. *)
Definition put_cell (r : raster T) (idx : Z) (c : vcell T) : outcome (raster T) :=
  if r_is2d r then
    ofold (fun r kv => write_cell r idx (fst kv) (snd kv))
          (combine (zseq (Z.of_nat (length (vc_vals c)))) (vc_vals c)) r
  else match vc_vals c with v :: _ => write_cell r idx 0 v | [] => UB end.

(** data_raster.hpp:4144-4178. [synthesis_idx > n_cells_ - 1] compares as
    size_t; [wrap] maps a possibly negative int to size_t. *)
Definition usz (z : Z) : Z := z mod 18446744073709551616.
(** data_raster.hpp:4144-4178. *)
Definition fill_cells (full : bool) (st : mstate) (ncols : Z) (cells : list (vcell T)) (r : raster T) : outcome (raster T) :=
  ofold (fun r kc =>
           let k := fst kc in let c := snd kc in
           if full then
             if outside_box st c then Ok r
             else
               let idx := (vc_row c - k_minr st) * ncols + vc_col c - k_minc st in
               if usz (r_ncells r - 1) <? usz idx then Ok r else put_cell r (usz idx) c
           else put_cell r k c)
        (combine (zseq (Z.of_nat (length cells))) cells) r.

(** data_raster.hpp:4064-4178 and 4256-4258: the part after the flags are set.
    [old] is [old_fullsize]; the result as for [MaskAndCalc]. *)
Definition mask_finish (ordm : list nat) (m1 : raster M) (st : mstate) (old : Z)
           (recalc full rowcol calc' validnum : bool) : outcome (raster T * raster M * bool * Z) :=
  let r := k_r st in
  let new_rows := k_maxr st - k_minr st + 1 in
  let new_cols := k_maxc st - k_minc st + 1 in
  let cs := r_cs m1 in
  (* header: 3960-3967, 4063-4070 *)
  let rows := if rowcol then new_rows else r_rows m1 in
  let cols := if rowcol then new_cols else r_cols m1 in
  let xll := if rowcol then (r_xll m1 + inject_Z (k_minc st) * cs)%Q else r_xll m1 in
  let yll := if rowcol then (r_yll m1 + inject_Z (r_rows m1 - k_maxr st - 1) * cs)%Q else r_yll m1 in
  let r1 := set_header r rows cols xll yll cs (r_nodata r) (r_hcells m1) (r_nlyrs r) in
  (* positions: 4073-4126 *)
  let cells := if recalc then keep_cells (r_nodata r) st else k_cells st in
  let* _ := release2d (r_pos r) in
  let* pr := (if recalc then
                let n := Z.of_nat (length cells) in
                let p := init2d None n (0, 0) in
                let ix := init1d None n 0 in
                Ok (m1, n,
                    option_map (fun _ => map (fun c => (vc_row c, vc_col c)) cells) p,
                    option_map (fun _ => map (fun c => vc_row c * (if rowcol then new_cols else r_cols m1) + vc_col c) cells) ix)
              else if calc' then
                let* a := GetRasterPositionData feqM ordm m1 in
                let* b := GetRasterPositionIndex feqM ordm (fst a) in
                Ok (fst b, fst (snd b), snd (snd a), snd (snd b))
              else Ok (m1, k_masked st, None, None)) in
  let m2 := fst (fst (fst pr)) in
  let r2 := set_pos (set_ncells r1 (snd (fst (fst pr))) (r_hcells r1))
                    (snd (fst pr)) (snd pr) calc' recalc in
  if negb (ValidateRasterData r2) then Throw                  (* assert, 4134 *)
  else
    (* data: 4131-4171 *)
    let n := if full then cols * rows else r_ncells r2 in
    let r3 := set_ncells r2 n (r_hcells r2) in
    let* r4 := (if full && (old =? n) then Ok r3
                else
                  let* r3' := (if r_is2d r3 && negb (isnull (r_data2d r3)) then
                                 let* _ := release2d (r_data2d r3) in
                                 Ok (set_cells r3 (r_data r3)
                                       (init2d None n (repeat (r_nodata r3) (Z.to_nat (r_nlyrs r3)))))
                               else Ok (set_cells r3 (init1d None n (r_nodata r3)) (r_data2d r3))) in
                  fill_cells full st cols cells r3') in
    (* 4174-4176, 4252-4255 *)
    let r5 := set_ncells r4 n (if validnum then n else r_hcells r4) in
    Ok (r5, m2, negb (full || recalc), 2).

(** data_raster.hpp:3872-4260 with a mask: the raster, the mask (whose positions
    may have been calculated), whether [mask_] is kept, and the return code. *)
Definition MaskAndCalc (ordm : list nat) (m : raster M) (r : raster T)
  : outcome (raster T * raster M * bool * Z) :=
  let old_fullsize := r_rows r * r_cols r in
  let* mp := mask_positions ordm m in
  let m1 := fst mp in
  let mask_ncells := fst (snd mp) in
  if mask_ncells <? 0 then Throw                (* vector of negative length *)
  else
    let* ps := (if mask_ncells =? 0 then Ok [] else deref (snd (snd mp))) in
    if Z.of_nat (length ps) <? mask_ncells then UB
    else
      let* st := mask_scan m1 r (firstn (Z.to_nat mask_ncells) ps) in
      if k_masked st =? 0 then Ok (k_r st, m1, true, -1)
      else
        let exact := k_matched st =? mask_ncells in
        let within := (k_maxr st - k_minr st + 1 =? r_rows m1) && (k_maxc st - k_minc st + 1 =? r_cols m1) in
        if within && negb (k_masked st =? mask_ncells) then Throw     (* assert, 3994 *)
        else
          let useext := r_maskext (k_r st) in let calc := r_calc (k_r st) in
          mask_finish ordm m1 st old_fullsize (recalc_flag within useext calc exact) (fullsize_flag within useext calc)
            (rowcol_flag within useext) (calc_flag within useext calc) (validnum_flag within useext calc exact).

End Mask.
