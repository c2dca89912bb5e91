(** Vocabulary for the properties of masks with subsets. *)
From Coq Require Import ZArith QArith List Bool.
From Verif Require Import Base RasterModel RasterSpec CoordModel CoordSpec MaskSpec SubsetModel SubsetSpec.
Import ListNotations.
Open Scope Z_scope.

(** The smallest rectangle around the cells. *)
Definition tight (cs : list (Z * Z)) (r0 r1 c0 c1 : Z) : Prop :=
  (forall rc, In rc cs -> r0 <= fst rc <= r1 /\ c0 <= snd rc <= c1) /\
  (exists rc, In rc cs /\ fst rc = r0) /\ (exists rc, In rc cs /\ fst rc = r1) /\
  (exists rc, In rc cs /\ snd rc = c0) /\ (exists rc, In rc cs /\ snd rc = c1).

(** [gi] is the index under which the raster keeps the cell's values. *)
Definition indexes {T} (r : raster T) (gi : Z) (rc : Z * Z) : Prop :=
  inside r (fst rc) (snd rc) /\ 0 <= gi < r_ncells r /\ GetPosition r (fst rc) (snd rc) = Ok gi /\
  forall lyr, GetValueByIndex r gi lyr = GetValue r (fst rc) (snd rc) lyr.

(** The subset stands for the cells [cs] of the raster, in this order: indices,
    local positions and window all belong to these cells. *)
Definition describes {T D} (r : raster T) (s : subset D) (cs : list (Z * Z)) : Prop :=
  exists g lp li, subset_of s g lp li /\ Forall2 (indexes r) g cs /\
    lp = map (fun rc => (fst rc - s_srow s, snd rc - s_scol s)) cs /\
    li = map (fun rc => (fst rc - s_srow s) * win_cols s + (snd rc - s_scol s)) cs /\
    tight cs (s_srow s) (s_erow s) (s_scol s) (s_ecol s).

(** The arrays with data have the size the subset says. *)
Definition data_fits {D} (s : subset D) : Prop :=
  (forall d, s_data s = Some d -> Z.of_nat (length d) = s_n s) /\
  (forall d, s_data2 s = Some d -> 1 <= s_lyrs s /\ Z.of_nat (length d) = s_n s /\ Forall (fun row => Z.of_nat (length row) = s_lyrs s) d).

(** The elements of the first list with property [keep], related one by one and in
    order to those of the second. *)
Inductive chosen {A B} (keep : A -> Prop) (rel : A -> B -> Prop) : list A -> list B -> Prop :=
| chosen_nil : chosen keep rel [] []
| chosen_take a b l l' : keep a -> rel a b -> chosen keep rel l l' -> chosen keep rel (a :: l) (b :: l')
| chosen_drop a l l' : ~ keep a -> chosen keep rel l l' -> chosen keep rel (a :: l) l'.

(** The subset with another number of layers and everything else the same. *)
Definition relayered {D} (lyrs : Z) (s : subset D) : subset D :=
  mkSub (s_usable s) (s_n s) lyrs (s_srow s) (s_erow s) (s_scol s) (s_ecol s) true
        (s_lpos s) (s_lidx s) (s_global s) (s_data s) (s_data2 s).

(** The cell shows a value. *)
Definition shown {T} (feq : T -> T -> bool) (r : raster T) (rc : Z * Z) : Prop :=
  exists v, GetValue r (fst rc) (snd rc) 1 = Ok v /\ feq v (r_nodata r) = false.

(** Below the mask cell the source (with its default value) has a value. *)
Definition valued {T M} (feq : T -> T -> bool) (r : raster T) (m : raster M) (rc : Z * Z) : Prop :=
  exists v, sees feq r m (fst rc) (snd rc) 1 v /\ feq v (r_nodata r) = false.

(** A mask whose subsets stand for the cells listed beside them. *)
Definition mask_subsets {M D} (m : raster M) (msubs : list (Z * subset D)) (cells : Z -> list (Z * Z)) : Prop :=
  msubs <> [] /\ forall k s, In (k, s) msubs -> describes m s (cells k) /\ data_fits s.
