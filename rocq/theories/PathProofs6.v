(** Removing the entries of directories. *)
From Coq Require Import ZArith Lia Ascii String List Bool.
From Verif Require Import Base ListLib StrModel StrProofs MapModel MapProofs FsModel FsProofs PathModel PathModel2 PathSpec PathProofs PathProofs2 PathProofs3 PathProofs4 PathProofs5.
Import ListNotations.
Open Scope Z_scope.

Lemma below_refl q : below q q.
Proof. exists []. symmetry. apply app_nil_r. Qed.
Lemma below_step q n x : below (q ++ [n]) x -> below q x.
Proof. intros [r ->]. exists (n :: r). rewrite <- app_assoc. reflexivity. Qed.
Lemma below_not_up q n : ~ below (q ++ [n]) q.
Proof. intros [r E]. apply (f_equal (@List.length bytes)) in E. rewrite !app_length in E. cbn in E. lia. Qed.
Lemma below_dec q x : below q x \/ ~ below q x.
Proof.
  destruct (place_dec (firstn (List.length q) x) q) as [E|E].
  - left. exists (skipn (List.length q) x). rewrite <- E at 1. symmetry. apply firstn_skipn.
  - right. intros [r ->]. apply E. rewrite firstn_app, firstn_all, Nat.sub_diag. cbn. apply app_nil_r.
Qed.

Lemma removed_refl root q : only_removed root root q.
Proof. intros x. left. reflexivity. Qed.
Lemma removed_trans a b c q : only_removed a b q -> only_removed b c q -> only_removed a c q.
Proof. intros A B x. destruct (B x) as [->|R]; [apply A|right; exact R]. Qed.
Lemma removed_up a b q n : only_removed a b (q ++ [n]) -> only_removed a b q.
Proof. intros A x. destruct (A x) as [->|[K B]]; [left; reflexivity|right]. split; [exact K|eapply below_step; exact B]. Qed.
Lemma removed_change a b q : only_change a b q None -> only_removed a b q.
Proof. intros [A B] x. destruct (place_dec x q) as [->|N]; [right; split; [exact A|apply below_refl]|left; apply B; exact N]. Qed.
Lemma removed_kind a b q x k : only_removed a b q -> kind_at b x = Some k -> kind_at a x = Some k.
Proof. intros A K. destruct (A x) as [E|[E _]]; congruence. Qed.
Lemma removed_ok a b q : fs_ok a -> only_removed a b q -> kind_at b [] = Some KDir -> fs_ok b.
Proof. intros [NO _] R K. split; [|exact K]. intros p k KP. eapply NO. eapply removed_kind; eassumption. Qed.
Lemma removed_step_ok a b q n : fs_ok a -> only_removed a b (q ++ [n]) -> fs_ok b.
Proof.
  intros OK R. eapply removed_ok; [exact OK|exact R|]. destruct (R []) as [E|[_ [r E]]]; [rewrite E; apply OK|]. destruct q; discriminate E.
Qed.

Lemma filled_get root q es : get root q = Some (TDir es) -> filled_dir root q <-> es <> [].
Proof.
  intros G. unfold filled_dir, kind_at. split.
  - intros (n & H) ->. apply H. rewrite get_app, G. reflexivity.
  - intros N. destruct es as [|[n t] es]; [congruence|]. exists n. rewrite get_app, G. cbn [get lookup fst]. rewrite beqb_self. cbn. discriminate.
Qed.
Lemma filled_is_dir root q : filled_dir root q -> kind_at root q = Some KDir.
Proof. intros (n & H). destruct (kind_at root (q ++ [n])) as [k|] eqn:K; [|congruence]. eapply kind_parent; exact K. Qed.
Lemma filled_dec root q : filled_dir root q \/ ~ filled_dir root q.
Proof.
  destruct (kind_at root q) as [[| | |]|] eqn:K; try (right; intros F; apply filled_is_dir in F; congruence).
  destruct (kind_dir _ _ K) as (es & G). destruct es as [|e es]; [right|left]; rewrite (filled_get _ _ _ G); [congruence|discriminate].
Qed.
Lemma nothing_below root q : ~ filled_dir root q -> forall n r, kind_at root (q ++ n :: r) = None.
Proof.
  intros NF n r. destruct (kind_at root (q ++ n :: r)) as [k|] eqn:K; [|reflexivity]. exfalso. apply NF. exists n. intros E.
  destruct r as [|m r]; [congruence|]. replace (q ++ n :: m :: r) with ((q ++ [n]) ++ m :: r) in K by (rewrite <- app_assoc; reflexivity). apply kind_prefix in K; [congruence|discriminate].
Qed.

Section Dirs.
Variables (cwd : place) (may : place -> bool).
Notation resolve0 root := (resolve false root cwd).

Lemma remove_in root dp n : dp <> [] -> entry_name n -> remove cwd may root (in_dir dp n) =
  match resolve0 root dp with
  | Some d => match get root (d ++ [n]) with
              | None => (-1, root)
              | Some (TDir (_ :: _)) => (-1, root)
              | Some _ => if may d then (0, put root d n None) else (-1, root)
              end
  | None => (-1, root)
  end.
Proof.
  intros N EN. pose proof EN as (N1 & N2 & N3 & NS). unfold remove, in_dir. rewrite comps_app, (comps_plain n NS), last_last, removelast_last.
  unfold dot_name. apply beqb_false in N1, N2, N3. rewrite N1, N2, N3. cbn [orb]. rewrite resolve_eq by exact N. destruct dp; [congruence|reflexivity].
Qed.

Lemma remove_entry root q n : fs_ok root -> kind_at root q = Some KDir -> entry_name n ->
  (remove cwd may root (in_dir (text q) n) = (-1, root) /\ (kind_at root (q ++ [n]) = None \/ filled_dir root (q ++ [n]) \/ may q = false)) \/
  (exists root', remove cwd may root (in_dir (text q) n) = (0, root') /\ only_change root root' (q ++ [n]) None /\
     kind_at root (q ++ [n]) <> None /\ ~ filled_dir root (q ++ [n]) /\ may q = true).
Proof.
  intros OK K EN. rewrite remove_in by (exact EN || apply text_ne). rewrite (resolve_text false root cwd q KDir OK K I).
  assert (P : forall x, get root (q ++ [n]) = Some x -> leaf x -> only_change root (put root q n None) (q ++ [n]) None).
  { intros x G L. assert (P : forall y, kind_at (put root q n None) y = if place_dec y (q ++ [n]) then None else kind_at root y).
    { intros y. rewrite (put_leaf root q n None K); [reflexivity| |discriminate]. intros z Z. rewrite G in Z. injection Z as <-. exact L. }
    split; [rewrite P; destruct (place_dec (q ++ [n]) (q ++ [n])); congruence|]. intros y Y. rewrite P. destruct (place_dec y (q ++ [n])); [contradiction|reflexivity]. }
  destruct (get root (q ++ [n])) as [x|] eqn:G; [|left; split; [reflexivity|left; unfold kind_at; rewrite G; reflexivity]].
  assert (KX : kind_at root (q ++ [n]) <> None) by (unfold kind_at; rewrite G; discriminate).
  assert (LF : leaf x -> ~ filled_dir root (q ++ [n])).
  { intros L F. pose proof (filled_is_dir _ _ F) as KD. destruct (kind_dir _ _ KD) as (es & G'). rewrite G in G'. injection G' as ->. apply (filled_get _ _ _ G) in F. destruct es; [congruence|exact L]. }
  destruct x as [c|t| |[|e es]]; try (destruct (may q) eqn:M; [right; eexists; split; [reflexivity|]; split; [eapply P; [reflexivity|exact I]|]; split; [exact KX|]; split; [apply LF; exact I|reflexivity]|left; auto]).
  left. split; [reflexivity|]. right. left. apply (filled_get _ _ _ G). discriminate.
Qed.

(** One removal: nothing, or the entry is gone. *)
Lemma remove_one root q n root' e : fs_ok root -> kind_at root q = Some KDir -> entry_name n -> remove cwd may root (in_dir (text q) n) = (e, root') ->
  fs_ok root' /\ kind_at root' q = Some KDir /\ only_removed root root' (q ++ [n]) /\ (forall r, r <> [] -> kind_at root' (q ++ n :: r) = kind_at root (q ++ n :: r)) /\
  (filled_dir root (q ++ [n]) -> e = -1 /\ root' = root) /\
  (~ filled_dir root (q ++ [n]) -> may q = true -> kind_at root' (q ++ [n]) = None /\ (kind_at root (q ++ [n]) <> None -> e = 0)) /\
  (e = 0 \/ e = -1) /\ (may q = false -> e = -1 /\ root' = root).
Proof.
  intros OK K EN E. destruct (remove_entry root q n OK K EN) as [(E' & C)|(r' & E' & OC & KN & NF & M)]; rewrite E' in E; injection E as <- <-.
  - split; [exact OK|]. split; [exact K|]. split; [apply removed_refl|]. split; [reflexivity|]. split; [auto|]. split; [|auto]. intros NF M.
    destruct C as [C|[C|C]]; [|contradiction|congruence]. split; [exact C|]. congruence.
  - pose proof (removed_change _ _ _ OC) as R. split; [eapply removed_step_ok; eauto|]. destruct OC as [O1 O2].
    split; [rewrite O2; [exact K|]; intros X; apply (f_equal (@List.length bytes)) in X; rewrite app_length in X; cbn in X; lia|]. split; [exact R|].
    split. { intros r NR. apply O2. intros X. change (n :: r) with ([n] ++ r) in X. apply app_inv_head in X. destruct r; [congruence|discriminate]. }
    split; [contradiction|]. split; [auto|]. split; [auto|congruence].
Qed.

Lemma diff_names (q : place) n m r s : n <> m -> q ++ n :: r <> q ++ m :: s.
Proof. intros N E. apply app_inv_head in E. congruence. Qed.

(** Removing several entries of one directory. *)
Lemma remove_all q : forall ns root, fs_ok root -> kind_at root q = Some KDir -> Forall entry_name ns ->
  let res := remove_files cwd may root (map (in_dir (text q)) ns) in
  fs_ok (snd res) /\ kind_at (snd res) q = Some KDir /\ only_removed root (snd res) q /\ 0 <= fst res /\
  (forall x, (forall n r, In n ns -> x <> q ++ n :: r) -> kind_at (snd res) x = kind_at root x) /\
  (forall n, In n ns -> filled_dir root (q ++ [n]) -> forall r, kind_at (snd res) (q ++ n :: r) = kind_at root (q ++ n :: r)) /\
  (may q = true -> forall n, In n ns -> ~ filled_dir root (q ++ [n]) -> forall r, kind_at (snd res) (q ++ n :: r) = None) /\
  (may q = false -> snd res = root) /\
  (NoDup ns -> Forall (fun n => kind_at root (q ++ [n]) <> None) ns -> (fst res = 0 <-> (may q = true \/ ns = []) /\ forall n, In n ns -> ~ filled_dir root (q ++ [n]))).
Proof.
  induction ns as [|n ns IH]; intros root OK K F; cbn [map remove_files].
  - split; [exact OK|]. split; [exact K|]. split; [apply removed_refl|]. split; [cbn; lia|]. split; [reflexivity|]. split; [intros n []|]. split; [intros _ n []|]. split; [reflexivity|].
    intros _ _. split; [intros _; split; [right; reflexivity|intros n []]|reflexivity].
  - inversion F as [|? ? EN F']; subst. destruct (remove cwd may root (in_dir (text q) n)) as [e root1] eqn:E.
    destruct (remove_one root q n root1 e OK K EN E) as (OK1 & K1 & R1 & RB & RF & RN & RE & RM).
    specialize (IH root1 OK1 K1 F'). destruct (remove_files cwd may root1 (map (in_dir (text q)) ns)) as [k root2]. cbn [fst snd] in *.
    destruct IH as (OK2 & K2 & R2 & P2 & O2 & F2 & N2 & M2 & C2).
    assert (SAME : forall m, m <> n -> filled_dir root1 (q ++ [m]) <-> filled_dir root (q ++ [m])).
    { intros m NM. unfold filled_dir. split; intros (c & H); exists c; intros X; apply H; destruct (R1 ((q ++ [m]) ++ [c])) as [Y|[Y [r Z]]]; try congruence.
      exfalso. rewrite <- !app_assoc in Z. cbn [app] in Z. eapply diff_names; [|exact Z]. congruence. }
    assert (OTHER : forall m r, m <> n -> kind_at root1 (q ++ m :: r) = kind_at root (q ++ m :: r)).
    { intros m r NM. destruct (R1 (q ++ m :: r)) as [Y|[Y [s Z]]]; [exact Y|]. exfalso. rewrite <- app_assoc in Z. cbn [app] in Z. eapply diff_names; [|exact Z]. exact NM. }
    assert (FN : filled_dir root (q ++ [n]) -> filled_dir root1 (q ++ [n])) by (intros FD; destruct (RF FD) as [_ ->]; exact FD).
    split; [exact OK2|]. split; [exact K2|]. split; [eapply removed_trans; [eapply removed_up; exact R1|exact R2]|].
    split; [destruct (e <? 0); lia|].
    split. { intros x NX. rewrite O2; [|intros m r I; apply NX; right; exact I]. destruct (R1 x) as [Y|[Y [r Z]]]; [exact Y|]. exfalso. rewrite <- app_assoc in Z. apply (NX n r (or_introl eq_refl) Z). }
    split. { intros m I FD r. destruct (list_eq_dec ascii_dec m n) as [->|NM].
      - destruct (RF FD) as [_ ->]. destruct (in_dec (list_eq_dec ascii_dec) n ns) as [J|J]; [apply F2; assumption|]. apply O2. intros m s J' X. apply app_inv_head in X. injection X as -> _. contradiction.
      - destruct I as [I|I]; [congruence|]. rewrite F2; [apply OTHER; exact NM|exact I|apply SAME; assumption]. }
    split. { intros M m I NF r. destruct (list_eq_dec ascii_dec m n) as [->|NM].
      - destruct (RN NF M) as [KN _]. assert (NB : kind_at root1 (q ++ n :: r) = None).
        { destruct r as [|c r]; [exact KN|]. rewrite RB by discriminate. change (n :: c :: r) with ([n] ++ c :: r). rewrite app_assoc. apply nothing_below. exact NF. }
        destruct (R2 (q ++ n :: r)) as [->|[Y _]]; [exact NB|exact Y].
      - destruct I as [I|I]; [congruence|]. apply N2; [exact M|exact I|]. rewrite SAME; assumption. }
    split. { intros M. rewrite (M2 M). apply (RM M). }
    intros ND EX. inversion ND as [|? ? NI ND']; subst. inversion EX as [|? ? EX1 EX']; subst.
    assert (EX2 : Forall (fun m => kind_at root1 (q ++ [m]) <> None) ns).
    { rewrite Forall_forall in *. intros m I. rewrite OTHER; [apply EX'; exact I|]. intros ->. contradiction. }
    specialize (C2 ND' EX2).
    assert (C2' : k = 0 <-> (may q = true \/ ns = []) /\ (forall m, In m ns -> ~ filled_dir root (q ++ [m]))).
    { rewrite C2. split; intros [A B]; (split; [exact A|]); intros m I; specialize (B m I); [rewrite <- SAME|rewrite SAME]; auto; intros ->; contradiction. }
    destruct (filled_dec root (q ++ [n])) as [FD|NF].
    + destruct (RF FD) as [-> _]. change (-1 <? 0) with true. split; [lia|]. intros [_ B]. exfalso. exact (B n (or_introl eq_refl) FD).
    + destruct (may q) eqn:M.
      * destruct (RN NF eq_refl) as [_ E0]. rewrite (E0 EX1). change (0 <? 0) with false. rewrite Z.add_0_l, C2'. split; intros [A B].
        -- split; [left; reflexivity|]. intros m [<-|I]; [exact NF|apply B; exact I].
        -- split; [left; reflexivity|]. intros m I. apply B. right. exact I.
      * destruct (RM eq_refl) as [-> _]. change (-1 <? 0) with true. split; [lia|]. intros [[A|A] _]; discriminate.
Qed.
End Dirs.
