(** Lemmas about memory: which blocks the functions of OwnModel need and leave. *)
From Coq Require Import List Bool Arith Lia Permutation.
From Verif Require Import Base OwnModel OwnSpec.
Import ListNotations.

Notation blk := (nat * nat)%type.
Definition blk_dec (a b : blk) : {a = b} + {a <> b}.
Proof. decide equality; apply Nat.eq_dec. Defined.
Definition cnt (x : blk) (l : list blk) : nat := count_occ blk_dec l x.

Lemma cnt_app x l r : cnt x (l ++ r) = cnt x l + cnt x r.
Proof. apply count_occ_app. Qed.
Lemma cnt_cons x a l : cnt x (a :: l) = cnt x [a] + cnt x l.
Proof. change (a :: l) with ([a] ++ l). apply cnt_app. Qed.
Lemma cnt_nil x : cnt x [] = 0.
Proof. reflexivity. Qed.
Lemma perm_cnt l r : (forall x, cnt x l = cnt x r) -> Permutation l r.
Proof. intro H. now apply (Permutation_count_occ blk_dec). Qed.
Lemma cnt_perm l r : Permutation l r -> forall x, cnt x l = cnt x r.
Proof. intros H x. now apply (Permutation_count_occ blk_dec). Qed.
Global Opaque cnt.

Lemma held_some b n : held (Some b) n = [(b, n)].
Proof. reflexivity. Qed.
Lemma held_none n : held None n = [].
Proof. reflexivity. Qed.

Ltac pnorm x := repeat first [rewrite cnt_app | rewrite cnt_nil | match goal with |- context [cnt x (?a :: ?l)] => lazymatch l with nil => fail | _ => rewrite (cnt_cons x a l) end end].
Ltac pnorm_in x H := repeat first [rewrite cnt_app in H | rewrite cnt_nil in H | match type of H with context [cnt x (?a :: ?l)] => lazymatch l with nil => fail | _ => rewrite (cnt_cons x a l) in H end end].
(** Permutations from permutations in the context. *)
Ltac psolve :=
  let x := fresh "x" in
  apply perm_cnt; intro x;
  repeat match goal with H : Permutation _ _ |- _ => generalize (cnt_perm _ _ H x); clear H end;
  intros;
  repeat match goal with H : context [cnt x _] |- _ => progress (pnorm_in x H) end;
  pnorm x; lia.

Ltac isolve :=
  let y := fresh "y" in let Hy := fresh "Hy" in
  intros y Hy;
  repeat match goal with
  | H : incl ?a ?b |- _ => first [assert (In y b) by (apply H; repeat rewrite in_app_iff; cbn [In]; tauto); clear H | clear H]
  end;
  repeat rewrite in_app_iff in *; cbn [In] in *; repeat rewrite in_app_iff in *; tauto.

(** ** Memory as a list of blocks *)
Definition owns (h : heap) (L : list blk) : Prop :=
  Permutation (h_live h) L /\ NoDup (map fst L) /\ Forall (fun x => 1 <= snd x) L /\ Forall (fun x => fst x < h_next h) L.

Lemma owns_perm h L L' : Permutation L L' -> owns h L -> owns h L'.
Proof.
  intros P (A & B & C & D). repeat split.
  - now transitivity L.
  - eapply Permutation_NoDup; [ | exact B]. now apply Permutation_map.
  - eapply Permutation_Forall; eauto.
  - eapply Permutation_Forall; eauto.
Qed.

Lemma rows_of_in l b n : NoDup (map fst l) -> In (b, n) l -> rows_of l b = Some n.
Proof.
  induction l as [ | (c, m) t IH]; cbn; intros N I; [contradiction | ].
  inversion N; subst. destruct (Nat.eqb_spec b c) as [-> | D].
  - destruct I as [E | I]; [now injection E as -> | ].
    exfalso. apply H1. change c with (fst (c, n)). now apply in_map.
  - apply IH; auto. destruct I as [E | I]; auto. injection E as E1 E2. congruence.
Qed.

Lemma drop_perm l b n : NoDup (map fst l) -> In (b, n) l -> Permutation l ((b, n) :: drop l b).
Proof.
  induction l as [ | (c, m) t IH]; cbn; intros N I; [contradiction | ].
  inversion N; subst. destruct (Nat.eqb_spec b c) as [-> | D].
  - destruct I as [E | I]; [now injection E as -> | ].
    exfalso. apply H1. change c with (fst (c, n)). now apply in_map.
  - destruct I as [E | I]; [injection E as E1 E2; congruence | ].
    specialize (IH H2 I). psolve.
Qed.

Lemma owns_nodup h L : owns h L -> NoDup (map fst (h_live h)).
Proof. intros (A & B & _). eapply Permutation_NoDup; [ | exact B]. apply Permutation_map. now symmetry. Qed.

Definition safe {A} (m : M A) (L : list blk) (Q : A -> list blk -> Prop) : Prop :=
  forall h, owns h L -> exists a h' L', m h = Ok (a, h') /\ owns h' L' /\ Q a L'.

Lemma safe_ret {A} (a : A) L (Q : A -> list blk -> Prop) : Q a L -> safe (ret a) L Q.
Proof. intros H h O. exists a, h, L. auto. Qed.

Lemma safe_bind {A B} (m : M A) (k : A -> M B) L Q :
  safe m L (fun a L' => safe (k a) L' Q) -> safe (bind m k) L Q.
Proof.
  intros H h O. destruct (H h O) as (a & h' & L' & E & O' & S).
  destruct (S h' O') as (b & h2 & L2 & E2 & O2 & Q2).
  exists b, h2, L2. unfold bind. rewrite E. cbn. auto.
Qed.

Lemma safe_cons {A} (m : M A) L (P Q : A -> list blk -> Prop) :
  safe m L P -> (forall a L', P a L' -> Q a L') -> safe m L Q.
Proof. intros H I h O. destruct (H h O) as (a & h' & L' & E & O' & S). exists a, h', L'. auto. Qed.

Lemma safe_perm {A} (m : M A) L L' Q : Permutation L L' -> safe m L' Q -> safe m L Q.
Proof. intros P H h O. apply H. now apply (owns_perm h L). Qed.

Lemma safe_let {A B} (m : M A) (k : A -> M B) L P Q :
  safe m L P -> (forall a L', P a L' -> safe (k a) L' Q) -> safe (bind m k) L Q.
Proof. intros H I. apply safe_bind. eapply safe_cons; eauto. Qed.

Lemma safe_new n L (Q : nat -> list blk -> Prop) : 1 <= n -> (forall b, Q b ((b, n) :: L)) -> safe (new n) L Q.
Proof.
  intros Hn HQ h (A & B & C & D). unfold new.
  exists (h_next h), (mkHeap (S (h_next h)) ((h_next h, n) :: h_live h)), ((h_next h, n) :: L).
  split; [reflexivity | ]. split; [ | apply HQ]. repeat split; cbn.
  - now constructor.
  - constructor; auto. intro I. apply in_map_iff in I. destruct I as ((c, m) & E & I).
    rewrite Forall_forall in D. apply D in I. cbn in *. lia.
  - constructor; auto.
  - constructor; cbn; [lia | ]. eapply Forall_impl; [ | exact D]. cbn. intros. lia.
Qed.

Lemma safe_free b n L L' (Q : unit -> list blk -> Prop) : Permutation L ((b, n) :: L') -> Q tt L' -> safe (free b) L Q.
Proof.
  intros P HQ h O. assert (N := owns_nodup h L O). assert (O2 := owns_perm _ _ _ P O).
  destruct O2 as (A & B & C & D).
  assert (I : In (b, n) (h_live h)) by (eapply Permutation_in; [symmetry; exact A | now left]).
  unfold free. rewrite (rows_of_in _ _ _ N I).
  exists tt, (mkHeap (h_next h) (drop (h_live h) b)), L'. split; [reflexivity | ]. split; [ | exact HQ].
  inversion B; subst. inversion C; subst. inversion D; subst. repeat split; cbn; auto.
  assert (X := drop_perm _ _ _ N I). apply (Permutation_cons_inv (a := (b, n))).
  transitivity (h_live h); [now symmetry | exact A].
Qed.

Lemma safe_touch p k n L (Q : unit -> list blk -> Prop) :
  p <> None -> incl (held p n) L -> k <= n -> Q tt L -> safe (touch p k) L Q.
Proof.
  intros NP I K HQ h O. destruct p as [b | ]; [ | congruence]. unfold touch.
  assert (N := owns_nodup h L O). assert (J : In (b, n) (h_live h)).
  { destruct O as (A & _). eapply Permutation_in; [symmetry; exact A | ]. apply I. now left. }
  rewrite (rows_of_in _ _ _ N J). apply Nat.leb_le in K. rewrite K. exists tt, h, L. auto.
Qed.

Lemma safe_release1 p n L L' (Q : unit -> list blk -> Prop) :
  Permutation L (held p n ++ L') -> Q tt L' -> safe (release1 p) L Q.
Proof.
  intros P HQ. destruct p as [b | ]; cbn [release1 held app] in *.
  - eapply safe_free; eauto.
  - eapply safe_perm; [exact P | ]. now apply safe_ret.
Qed.

Lemma safe_release2 p n L L' (Q : unit -> list blk -> Prop) :
  Permutation L (held p n ++ L') -> Q tt L' -> safe (release2 p) L Q.
Proof.
  intros P HQ. destruct p as [b | ]; cbn [release2] in *.
  - intros h O. assert (1 <= n).
    { destruct (owns_perm _ _ _ P O) as (_ & _ & C & _). cbn in C. now inversion C. }
    revert h O. apply (safe_bind _ _ L). apply (safe_touch _ _ n); [congruence | | lia | ].
    + intros y Hy. eapply Permutation_in; [symmetry; exact P | ]. apply in_or_app. now left.
    + eapply safe_free; [exact P | exact HQ].
  - eapply safe_perm; [exact P | ]. now apply safe_ret.
Qed.

Lemma safe_init1 n L (Q : option nat -> list blk -> Prop) : 1 <= n -> (forall b, Q (Some b) ((b, n) :: L)) -> safe (init1 n None) L Q.
Proof.
  intros H HQ. destruct n as [ | n]; [lia | ]. unfold init1. apply safe_bind. apply safe_new; [exact H | ].
  intro b. apply safe_ret. apply HQ.
Qed.
Lemma safe_init2 n L (Q : option nat -> list blk -> Prop) : 1 <= n -> (forall b, Q (Some b) ((b, n) :: L)) -> safe (init2 n None) L Q.
Proof.
  intros H HQ. unfold init2. apply safe_bind. apply safe_new; [exact H | ].
  intro b. apply safe_ret. apply HQ.
Qed.
Lemma safe_init1_from n src L (Q : option nat -> list blk -> Prop) :
  1 <= n -> incl (held src n) L -> (forall b, Q (Some b) ((b, n) :: L)) -> safe (init1_from n None src) L Q.
Proof.
  intros H I HQ. unfold init1_from. apply safe_bind. apply safe_new; [exact H | ]. intro b. apply safe_bind.
  destruct src as [c | ].
  - apply (safe_touch _ _ n); [congruence | | lia | apply safe_ret; apply HQ].
    intros y Hy. right. now apply I.
  - apply safe_ret. apply safe_ret. apply HQ.
Qed.
Lemma safe_init2_from n src L (Q : option nat -> list blk -> Prop) :
  1 <= n -> src <> None -> incl (held src n) L -> (forall b, Q (Some b) ((b, n) :: L)) -> safe (init2_from n None src) L Q.
Proof.
  intros H S I HQ. unfold init2_from. apply safe_bind. apply (safe_touch _ _ n); auto.
  apply safe_bind. apply safe_init2; [exact H | ]. intro b. apply safe_bind.
  apply (safe_touch _ _ n); auto; [ | apply safe_ret; apply HQ]. intros y Hy. right. now apply I.
Qed.

(** Loops. [K]: blocks that stay. *)
Lemma safe_mapM {A B} (f : A -> M B) (inp : A -> list blk) (out : B -> list blk) (R : B -> Prop) (K : list blk) l :
  (forall a F, In a l -> incl K F -> safe (f a) (inp a ++ F) (fun b L' => Permutation L' (out b ++ F) /\ R b)) ->
  forall F, incl K F ->
  safe (mapM f l) (flat_map inp l ++ F) (fun bs L' => Permutation L' (flat_map out bs ++ F) /\ Forall R bs).
Proof.
  induction l as [ | a t IH]; intros H F KF; cbn [mapM flat_map].
  - apply safe_ret. cbn. split; [reflexivity | constructor].
  - rewrite <- app_assoc.
    eapply safe_let. { apply H; [now left | ]. intros y Hy. apply in_or_app. right. now apply KF. }
    cbn beta. intros b L' (P & Rb).
    eapply safe_let.
    { eapply safe_perm; [ | apply (IH ltac:(intros; apply H; [now right | assumption]) (out b ++ F))].
      - rewrite P. psolve.
      - intros y Hy. apply in_or_app. right. now apply KF. }
    cbn beta. intros bs L2 (P2 & Rs). apply safe_ret. split; [ | now constructor].
    cbn [flat_map]. psolve.
Qed.

(** Subsets in a state to be copied. *)
Definition sub_ok (u : sub) : Prop :=
  1 <= u_n u /\ u_alloc u = true /\ u_lpos u <> None /\ u_lidx u <> None /\ u_global u <> None.

Lemma safe_DestroySub u F (Q : unit -> list blk -> Prop) : Q tt F -> safe (DestroySub u) (held_sub u ++ F) Q.
Proof.
  intro HQ. unfold DestroySub, held_sub. destruct (u_alloc u).
  - apply safe_bind. eapply (safe_release2 _ (u_n u)); [rewrite <- !app_assoc; reflexivity | ].
    apply safe_bind. eapply (safe_release1 _ (u_n u)); [reflexivity | ].
    apply safe_bind. eapply (safe_release1 _ (u_n u)); [reflexivity | ].
    apply safe_bind. eapply (safe_release1 _ (u_n u)); [reflexivity | ].
    eapply (safe_release2 _ (u_n u)); [reflexivity | ]. exact HQ.
  - do 3 (apply safe_bind; apply safe_ret).
    apply safe_bind. eapply (safe_release1 _ (u_n u)); [rewrite app_nil_l, <- !app_assoc; reflexivity | ].
    eapply (safe_release2 _ (u_n u)); [reflexivity | ]. exact HQ.
Qed.

Lemma safe_CopySub u F : sub_ok u -> incl (held_sub u) F ->
  safe (CopySub true u) F (fun v L' => Permutation L' (held_sub v ++ F) /\ sub_ok v /\ u_n v = u_n u
    /\ null (u_data v) = null (u_data u) /\ null (u_data2 v) = null (u_data2 u)).
Proof.
  intros (Hn & Ha & Hp & Hi & Hg) I. unfold CopySub.
  unfold held_sub in I. rewrite Ha in I.
  apply safe_bind. apply safe_init1_from; [exact Hn | isolve | ]. intro g.
  apply safe_bind. apply safe_init2_from; [exact Hn | exact Hp | isolve | ]. intro p.
  apply safe_bind. apply safe_init1_from; [exact Hn | isolve | ]. intro i.
  eapply safe_let with (P := fun d L' => Permutation L' (held d (u_n u) ++ (i, u_n u) :: (p, u_n u) :: (g, u_n u) :: F) /\ null d = null (u_data u)).
  { destruct (u_data u) as [x | ] eqn:E; cbn [null].
    - apply safe_init1_from; [exact Hn | isolve | ]. intro. split; reflexivity.
    - apply safe_ret. split; reflexivity. }
  cbn beta. intros d L1 (P1 & N1).
  eapply safe_let with (P := fun e L' => Permutation L' (held e (u_n u) ++ L1) /\ null e = null (u_data2 u)).
  { destruct (u_data2 u) as [x | ] eqn:E; cbn [null].
    - apply safe_init2_from; [exact Hn | congruence | | intro; split; reflexivity].
      intros y Hy. eapply Permutation_in; [symmetry; exact P1 | ].
      assert (J : In y F) by (apply I; rewrite !in_app_iff; tauto). rewrite in_app_iff. cbn [In]. tauto.
    - apply safe_ret. split; reflexivity. }
  cbn beta. intros e L2 (P2 & N2). apply safe_ret. split; [ | repeat split; cbn; congruence || auto].
  unfold held_sub. cbn [u_alloc u_lpos u_lidx u_global u_data u_data2 u_n held]. psolve.
Qed.

Lemma safe_BuildSub n F : 1 <= n -> safe (BuildSub n) F (fun v L' => Permutation L' (held_sub v ++ F) /\ sub_ok v).
Proof.
  intro H. unfold BuildSub. apply safe_bind. apply safe_init1; [exact H | ]. intro g.
  apply safe_bind. apply safe_init2; [exact H | ]. intro p.
  apply safe_bind. apply safe_init1; [exact H | ]. intro i. apply safe_ret.
  split; [ | repeat split; cbn; congruence || auto].
  unfold held_sub. cbn [u_alloc u_lpos u_lidx u_global u_data u_data2 u_n held]. psolve.
Qed.

Lemma safe_SetSubData u F : sub_ok u -> safe (SetSubData u) (held_sub u ++ F) (fun v L' => Permutation L' (held_sub v ++ F) /\ sub_ok v).
Proof.
  intros (Hn & Ha & Hp & Hi & Hg). unfold SetSubData. unfold held_sub at 1. rewrite Ha.
  destruct (u_data u) as [x | ] eqn:E.
  - apply safe_bind. apply safe_bind. apply (safe_touch _ _ (u_n u)); [congruence | isolve | lia | ].
    apply safe_ret. apply safe_ret. split; [ | repeat split; cbn; congruence || auto].
    unfold held_sub. cbn [u_alloc u_lpos u_lidx u_global u_data u_data2 u_n]. rewrite ?Ha. psolve.
  - apply safe_bind. apply safe_bind. apply safe_new; [exact Hn | ]. intro b.
    apply safe_ret. apply safe_ret. split; [ | repeat split; cbn; congruence || auto].
    unfold held_sub. cbn [u_alloc u_lpos u_lidx u_global u_data u_data2 u_n]. rewrite ?Ha. cbn [held]. psolve.
Qed.

Lemma safe_SetSubData2 u F : sub_ok u -> safe (SetSubData2 u) (held_sub u ++ F) (fun v L' => Permutation L' (held_sub v ++ F) /\ sub_ok v).
Proof.
  intros (Hn & Ha & Hp & Hi & Hg). unfold SetSubData2. unfold held_sub at 1. rewrite Ha.
  destruct (u_data2 u) as [x | ] eqn:E.
  - apply safe_bind. apply safe_bind. apply (safe_touch _ _ (u_n u)); [congruence | isolve | lia | ].
    apply safe_ret. apply safe_ret. split; [ | repeat split; cbn; congruence || auto].
    unfold held_sub. cbn [u_alloc u_lpos u_lidx u_global u_data u_data2 u_n]. rewrite ?Ha. psolve.
  - apply safe_bind. apply safe_bind. apply safe_new; [exact Hn | ]. intro b.
    apply safe_ret. apply safe_ret. split; [ | repeat split; cbn; congruence || auto].
    unfold held_sub. cbn [u_alloc u_lpos u_lidx u_global u_data u_data2 u_n]. rewrite ?Ha. cbn [held]. psolve.
Qed.
