(** C153: the options of a raster and its spatial reference. *)
From Coq Require Import ZArith Ascii String List Bool Lia.
From Verif Require Import Base RasterModel ListLib StrModel StrProofs MapModel MapProofs ArrayModel SrsModel SrsProofs.
Import ListNotations.
Open Scope Z_scope.

(** ** C153. What is set is what is got, for each key, and nothing for a key never set. *)
Theorem C153_option : forall (o : smap bytes) k v,
  GetOption (UpdateMap o k v) k = v /\ (forall k', k' <> k -> GetOption (UpdateMap o k v) k' = GetOption o k') /\
  (forall k', (forall w, ~ In (k', w) o) -> GetOption o k' = []).
Proof.
  intros o k v. unfold GetOption. split; [|split].
  - rewrite lookup_UpdateMap. rewrite (proj2 (beqb_eq k k) eq_refl). reflexivity.
  - intros k' N. rewrite lookup_UpdateMap. destruct (beqb k k') eqn:E; [|reflexivity]. apply beqb_eq in E. congruence.
  - intros k' N. destruct (lookup o k') as [w|] eqn:E; [|reflexivity]. destruct (N w (lookup_In _ _ _ E)).
Qed.
Print Assumptions C153_option.

(** The spatial reference that was set is got as a string, and can be read through a pointer
    into that string while the caller keeps it. *)
Theorem C153_string : forall (h : @heap ascii) (o : smap bytes) srs fuel, Forall (fun c => c <> zero) srs -> (List.length srs < fuel)%nat ->
  let kept := c_str h (GetSrsString (UpdateMap o (str "SRS") srs)) in
  GetSrsString (UpdateMap o (str "SRS") srs) = srs /\ read_text fuel (fst kept) (snd kept) 0 = Ok srs.
Proof.
  intros h o srs fuel N L. assert (E : GetSrsString (UpdateMap o (str "SRS") srs) = srs) by apply C153_option. cbv zeta. rewrite E. split; [reflexivity|].
  exact (read_kept h srs srs [] fuel eq_refl L N).
Qed.
Print Assumptions C153_string.

(** Not so through the pointer GetSrs gives: for every raster, with or without a spatial
    reference, reading any character is undefined. *)
Theorem C153_pointer_refuted : forall (h : @heap ascii) (o : smap bytes), exists h' p, GetSrs h o = Ok (h', p) /\
  (forall i, load_val h' p i = UB) /\ (forall fuel, read_text fuel h' p 0 = UB) /\
  (forall b, (b < List.length h)%nat -> nth_error h' b = nth_error h b).
Proof.
  intros h o. destruct (srs_gone h o) as (h' & p & E & U & K). exists h', p. split; [exact E|].
  assert (V : forall i, load_val h' p i = UB) by (intros i; unfold load_val; rewrite U; reflexivity).
  split; [exact V|]. split; [|exact K]. intros [|fuel]; [reflexivity|]. cbn [read_text]. rewrite V. reflexivity.
Qed.
Print Assumptions C153_pointer_refuted.

Example C153_ex : let o := UpdateMap InitialStrHeader (str "SRS") (str "EPSG:4326") in
  GetSrsString o = str "EPSG:4326" /\ GetOption o (str "UNITS") = [] /\
  (let kept := c_str [] (GetSrsString o) in read_text 20 (fst kept) (snd kept) 0 = Ok (str "EPSG:4326")) /\
  exists h' p, GetSrs [] o = Ok (h', p) /\ read_text 20 h' p 0 = UB.
Proof. cbv zeta. split; [reflexivity|]. split; [reflexivity|]. split; [reflexivity|]. eexists. eexists. split; reflexivity. Qed.
