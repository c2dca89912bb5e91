From Coq Require Import ZArith List Bool Lia Permutation ZifyBool.
From Verif Require Import Base RasterModel RasterSpec ListLib ParModel ParSpec ParProofs ParProofs2 ShareModel ShareProofs ShareProofs3 MaskShareModel MaskShareSpec MaskShareProofs.
Import ListNotations.
Open Scope Z_scope.

Section M.
Context {T D : Type}.
Notation prog := (prog T D learnt).
Implicit Types (p q : prog) (m : mem T D).
Variable feq : T -> T -> bool.
Notation ro := (fits (R := learnt) (fun _ => true) (fun _ => false)).

Lemma ro_rdI (m0 : mem T D) l z (k : Z -> prog) : m0 l = Some (WI z) -> ro (guard (Kin m0) (k z)) -> ro (guard (Kin m0) (rdI l k)).
Proof.
  intros E H. cbn [rdI guard fits]. split; [reflexivity|]. intros w. unfold Kin at 1. rewrite E. destruct w as [z'|x|d]; try exact I. destruct (Z.eqb_spec z' z) as [->|N]; [exact H|exact I].
Qed.
Lemma ro_any (m0 : mem T D) l (k : Z -> prog) : (forall z, ro (guard (Kin m0) (k z))) -> ro (guard (Kin m0) (rdI l k)).
Proof. intros H. cbn [rdI guard fits]. split; [reflexivity|]. intros w. destruct (Kin m0 l w); [|exact I]. destruct w; [apply H|exact I|exact I]. Qed.
Lemma ro_pos (m0 : mem T D) rows cols ix : forall seen, ro (guard (Kin m0) (read_posM ix seen (fun ps => Add (rows, cols, ps) Done))).
Proof. induction ix as [|i ix IH]; intros seen; cbn [read_posM]; [exact I|]. apply ro_any. intros a. apply ro_any. intros b. apply IH. Qed.

(** The guards let through what the memory holds. *)
Lemma guard_run (m0 : mem T D) p ad ev q m' : goes p m0 ad ev q m' -> (forall l, In (true, l) ev -> False) -> q = Done -> run (guard (Kin m0) p) m0 = Some (m0, ad).
Proof.
  intros G. remember m0 as m eqn:E in G. induction G as [p m|l k w m ad ev q m' L G IH|l w w0 p m ad ev q m' L G IH|d p m ad ev q m' G IH]; intros NW Q; subst; cbn [guard run].
  - reflexivity.
  - rewrite L. assert (K : Kin m0 l w = true) by (unfold Kin; rewrite L; destruct w; [apply Z.eqb_refl|reflexivity|reflexivity]). rewrite K. apply IH; [reflexivity| |reflexivity]. intros x X. apply (NW x). right. exact X.
  - exfalso. apply (NW l). left. reflexivity.
  - rewrite IH; auto.
Qed.
Lemma mask_share n rows cols ps (m0 : mem T D) : holds_positions m0 rows cols ps -> parallel_for n (fun _ => UseMask feq) m0 m0 (fun _ => [(rows, cols, ps)]).
Proof.
  intros H. pose proof H as (HR & HC & HP & HN & HA). apply (under_par n _ (fun _ => guard (Kin m0) (UseMask feq))); [intros; apply guard_under|]. apply no_cell.
  - intros i _. unfold UseMask. apply (ro_rdI m0 _ rows _ HR). apply (ro_rdI m0 _ cols _ HC). unfold PositionsM. apply (ro_rdI m0 _ 1 _ HP). cbn [Z.eqb negb]. apply ro_any. intros z. apply ro_pos.
  - intros i _. exists m0. destruct (goes_ready feq rows cols ps m0 H) as (ev & _ & NW & G). apply (guard_run m0 _ _ ev Done m0 G); [exact NW|reflexivity].
Qed.
End M.
