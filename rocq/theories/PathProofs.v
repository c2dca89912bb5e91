(** Names, places and trees. *)
From Coq Require Import ZArith Lia Ascii String List Bool.
From Verif Require Import Base ListLib StrModel StrProofs MapModel FsModel FsProofs PathModel PathSpec.
Import ListNotations.
Open Scope Z_scope.

Lemma beqb_spec a b : beqb a b = true <-> a = b.
Proof. unfold beqb. destruct (list_eq_dec ascii_dec a b); split; congruence. Qed.
Lemma beqb_false a b : beqb a b = false <-> a <> b.
Proof. unfold beqb. destruct (list_eq_dec ascii_dec a b); split; congruence. Qed.
Lemma beqb_self a : beqb a a = true.
Proof. apply beqb_spec. reflexivity. Qed.

(** Equality of places is decidable. *)
Definition place_dec (a b : place) : {a = b} + {a <> b} := list_eq_dec (list_eq_dec ascii_dec) a b.

(** Trees *)
Lemma get_app t : forall p q, get t (p ++ q) = match get t p with Some t' => get t' q | None => None end.
Proof.
  intros p. revert t. induction p as [|n p IH]; intros t q; [reflexivity|]. cbn [get app]. destruct t; try reflexivity.
  destruct (lookup entries n); [apply IH|reflexivity].
Qed.

Lemma kind_parent t p c k : kind_at t (p ++ [c]) = Some k -> kind_at t p = Some KDir.
Proof.
  unfold kind_at. rewrite get_app. destruct (get t p) as [[| | |es]|]; cbn [get option_map]; try discriminate. reflexivity.
Qed.

Lemma kind_prefix t q : forall p k, kind_at t (p ++ q) = Some k -> q <> [] -> kind_at t p = Some KDir.
Proof.
  induction q as [|c q IH]; intros p k K N; [congruence|]. destruct q as [|c' q]; [eapply kind_parent; eauto|].
  replace (p ++ c :: c' :: q) with ((p ++ [c]) ++ c' :: q) in K by (rewrite <- app_assoc; reflexivity).
  apply IH in K; [|discriminate]. eapply kind_parent; eauto.
Qed.

Lemma kind_up t p : kind_at t p = Some KDir -> kind_at t (removelast p) = Some KDir.
Proof.
  destruct p as [|c p] using rev_ind; [auto|]. rewrite removelast_last. intros K. eapply kind_parent; eauto.
Qed.

Lemma lookup_filter (es : list (bytes * tree)) n m : lookup (filter (fun e => negb (beqb (fst e) n)) es) m = if beqb m n then None else lookup es m.
Proof.
  induction es as [|[k v] es IH]; cbn [filter lookup fst]; [destruct (beqb m n); reflexivity|]. destruct (beqb k n) eqn:E; cbn [negb].
  - rewrite IH. destruct (beqb m n) eqn:E2; [reflexivity|]. destruct (beqb k m) eqn:E3; [|reflexivity]. apply beqb_spec in E, E3. subst. rewrite beqb_self in E2. discriminate.
  - cbn [lookup]. rewrite IH. destruct (beqb k m) eqn:E3; [|reflexivity]. destruct (beqb m n) eqn:E2; [|reflexivity]. apply beqb_spec in E2, E3. subst. rewrite beqb_self in E. discriminate.
Qed.

Lemma lookup_app (a b : list (bytes * tree)) m : lookup (a ++ b) m = match lookup a m with Some v => Some v | None => lookup b m end.
Proof. induction a as [|[k v] a IH]; cbn; [reflexivity|]. destruct (beqb k m); auto. Qed.

Lemma lookup_edit es n v m : lookup (edit es n v) m = if beqb m n then v else lookup es m.
Proof.
  unfold edit. rewrite lookup_app, lookup_filter. destruct (beqb m n) eqn:E.
  - destruct v; cbn [lookup]; [|reflexivity]. apply beqb_spec in E. subst. rewrite beqb_self. reflexivity.
  - destruct (lookup es m); [reflexivity|]. destruct v; cbn [lookup]; [|reflexivity]. destruct (beqb n m) eqn:E2; [|reflexivity]. apply beqb_spec in E2. subst. rewrite beqb_self in E. discriminate.
Qed.

Lemma lookup_map (f : bytes * tree -> tree) (es : list (bytes * tree)) m n : lookup (map (fun e => if beqb (fst e) m then (fst e, f e) else e) es) n =
  if beqb n m then match lookup es n with Some t => Some (f (n, t)) | None => None end else lookup es n.
Proof.
  induction es as [|[k v] es IH]; cbn [map lookup fst]; [destruct (beqb n m); reflexivity|].
  destruct (beqb k m) eqn:E; cbn [lookup]; destruct (beqb k n) eqn:E2; try (apply beqb_spec in E2; subst k); rewrite ?E; auto.
Qed.

(** What a change of one entry does to every place. *)
Lemma get_put v : forall d t n q, (exists es, get t d = Some (TDir es)) -> option_map kind_of (get (put t d n v) q) =
  match (if place_dec (firstn (S (List.length d)) q) (d ++ [n]) then true else false) with
  | true => match v with Some x => option_map kind_of (get x (skipn (S (List.length d)) q)) | None => None end
  | false => option_map kind_of (get t q)
  end.
Proof.
  induction d as [|m d IH]; intros t n q [es H]; cbn [get] in H.
  - injection H as ->. cbn [put app List.length]. destruct q as [|c q]; [reflexivity|]. cbn [get firstn skipn]. rewrite lookup_edit.
    destruct (beqb c n) eqn:E; [apply beqb_spec in E; subst|apply beqb_false in E].
    + destruct (place_dec [n] [n]); [|congruence]. destruct v; reflexivity.
    + destruct (place_dec [c] [n]); [congruence|]. reflexivity.
  - destruct t as [| | |fs]; try discriminate. destruct (lookup fs m) as [t'|] eqn:L; [|discriminate]. cbn [put].
    destruct q as [|c q]; [reflexivity|]. cbn [get List.length]. rewrite (lookup_map (fun e => put (snd e) d n v)). cbn [snd].
    change (firstn (S (S (List.length d))) (c :: q)) with (c :: firstn (S (List.length d)) q). change (skipn (S (S (List.length d))) (c :: q)) with (skipn (S (List.length d)) q).
    destruct (beqb c m) eqn:E; [apply beqb_spec in E; subst c|apply beqb_false in E].
    + rewrite L. rewrite (IH t' n q); [|eauto]. destruct (place_dec (firstn (S (List.length d)) q) (d ++ [n])) as [A|A]; destruct (place_dec (m :: firstn (S (List.length d)) q) ((m :: d) ++ [n])) as [B|B]; try reflexivity.
      * cbn [app] in B. exfalso. apply B. f_equal. exact A.
      * cbn [app] in B. exfalso. injection B as B. contradiction.
    + destruct (place_dec (c :: firstn (S (List.length d)) q) ((m :: d) ++ [n])) as [B|B]; [|reflexivity]. cbn [app] in B. exfalso. injection B as B1 B2. contradiction.
Qed.

Lemma kind_dir t d : kind_at t d = Some KDir -> exists es, get t d = Some (TDir es).
Proof. unfold kind_at. destruct (get t d) as [[| | |es]|]; cbn; try discriminate. eauto. Qed.

(** A leaf put at a place where nothing lies below. *)
Lemma leaf_get x c q : leaf x -> get x (c :: q) = None.
Proof. destruct x as [| | |[|]]; cbn; intuition. Qed.

Lemma put_self t d n v : kind_at t d = Some KDir -> (forall x, v = Some x -> leaf x) -> kind_at (put t d n v) (d ++ [n]) = option_map kind_of v.
Proof.
  intros K L. unfold kind_at. rewrite get_put by (apply kind_dir; exact K). replace (S (List.length d)) with (List.length (d ++ [n])) by (rewrite app_length; cbn; lia).
  rewrite firstn_all, skipn_all. match goal with |- context [place_dec ?a ?b] => destruct (place_dec a b) end; [|congruence]. destruct v; reflexivity.
Qed.

Lemma put_below t d n v q : kind_at t d = Some KDir -> (forall x, v = Some x -> leaf x) -> q <> [] -> kind_at (put t d n v) (d ++ n :: q) = None.
Proof.
  intros K L N. unfold kind_at. rewrite get_put by (apply kind_dir; exact K). replace (d ++ n :: q) with ((d ++ [n]) ++ q) by (rewrite <- app_assoc; reflexivity).
  replace (S (List.length d)) with (List.length (d ++ [n])) by (rewrite app_length; cbn; lia).
  rewrite firstn_app, skipn_app, firstn_all, skipn_all, Nat.sub_diag. cbn [firstn skipn app]. rewrite app_nil_r. match goal with |- context [place_dec ?a ?b] => destruct (place_dec a b) end; [|congruence].
  destruct v as [x|]; [|reflexivity]. destruct q; [congruence|]. rewrite leaf_get by auto. reflexivity.
Qed.

Lemma put_other t d n v q : kind_at t d = Some KDir -> (forall r, q <> d ++ n :: r) -> kind_at (put t d n v) q = kind_at t q.
Proof.
  intros K N. unfold kind_at. rewrite get_put by (apply kind_dir; exact K). match goal with |- context [place_dec ?a ?b] => destruct (place_dec a b) as [E|E] end; [|reflexivity].
  exfalso. apply (N (skipn (S (List.length d)) q)). rewrite <- (firstn_skipn (S (List.length d)) q) at 1. rewrite E. rewrite <- app_assoc. reflexivity.
Qed.

(** Change of one entry without anything below before and after: exactly that place. *)
Lemma put_leaf t d n v : kind_at t d = Some KDir -> (forall x, get t (d ++ [n]) = Some x -> leaf x) -> (forall x, v = Some x -> leaf x) ->
  forall q, kind_at (put t d n v) q = if place_dec q (d ++ [n]) then option_map kind_of v else kind_at t q.
Proof.
  intros K B A q. destruct (place_dec q (d ++ [n])) as [->|N]; [apply put_self; assumption|].
  destruct (place_dec (firstn (S (List.length d)) q) (d ++ [n])) as [E|E].
  - assert (Q : q = d ++ n :: skipn (S (List.length d)) q) by (rewrite <- (firstn_skipn (S (List.length d)) q) at 1; rewrite E, <- app_assoc; reflexivity).
    rewrite Q. set (r := skipn _ q) in *. destruct r as [|c r]; [contradiction|]. rewrite put_below by (auto; discriminate).
    unfold kind_at. replace (d ++ n :: c :: r) with ((d ++ [n]) ++ c :: r) by (rewrite <- app_assoc; reflexivity). rewrite get_app.
    destruct (get t (d ++ [n])) as [x|] eqn:G; [|reflexivity]. rewrite leaf_get by auto. reflexivity.
  - apply put_other; [exact K|]. intros r Q. apply E. rewrite Q. replace (d ++ n :: r) with ((d ++ [n]) ++ r) by (rewrite <- app_assoc; reflexivity).
    replace (S (List.length d)) with (List.length (d ++ [n])) by (rewrite app_length; cbn; lia). rewrite firstn_app, firstn_all, Nat.sub_diag. cbn. apply app_nil_r.
Qed.

(** Paths *)
Lemma comps_ne s : comps s <> [].
Proof. destruct s as [|c s]; cbn; [discriminate|]. destruct (ascii_dec c SEP); [discriminate|]. destruct (comps s); discriminate. Qed.

Lemma comps_plain n : ~ In SEP n -> comps n = [n].
Proof.
  induction n as [|c n IH]; intros N; [reflexivity|]. cbn [comps]. destruct (ascii_dec c SEP) as [->|]; [exfalso; apply N; left; reflexivity|].
  rewrite IH; [reflexivity|]. intros X. apply N. right. exact X.
Qed.

Lemma comps_app a b : comps (a ++ SEP :: b) = comps a ++ comps b.
Proof.
  induction a as [|c a IH]; [reflexivity|]. cbn [comps app]. destruct (ascii_dec c SEP); [rewrite IH; reflexivity|]. rewrite IH.
  pose proof (comps_ne a). destruct (comps a); [congruence|]. reflexivity.
Qed.

Lemma comps_no_sep s : Forall (fun c => ~ In SEP c) (comps s).
Proof.
  induction s as [|c s IH]; cbn [comps]; [repeat constructor; intros []|]. destruct (ascii_dec c SEP) as [->|N]; [constructor; [intros []|exact IH]|].
  destruct (comps s) as [|h r]; [repeat constructor; intros [X|[]]; congruence|]. inversion IH; subst. constructor; [|assumption]. intros [X|X]; [congruence|contradiction].
Qed.

Lemma comps_text p : Forall entry_name p -> comps (text p) = match p with [] => [[]; []] | _ => [] :: p end.
Proof.
  destruct p as [|c p]; [intros _; reflexivity|]. intros F. unfold text. remember (c :: p) as l. clear Heql c p.
  assert (Q : forall a, comps (a ++ concat (map (fun c => SEP :: c) l)) = comps a ++ l).
  { induction F as [|c l (N1 & N2 & N3 & N4) F IH]; intros a; [cbn; rewrite !app_nil_r; reflexivity|]. cbn [map concat].
    replace (a ++ (SEP :: c) ++ concat (map (fun c => SEP :: c) l)) with (a ++ SEP :: (c ++ concat (map (fun c => SEP :: c) l))) by reflexivity. rewrite comps_app, IH, (comps_plain c N4).
    reflexivity. }
  exact (Q []).
Qed.

Lemma absolute_text p : absolute (text p) = true.
Proof. destruct p; reflexivity. Qed.
Lemma text_ne p : text p <> [].
Proof. destruct p; discriminate. Qed.

(** Walking *)
Lemma walk_unfold create root links pos cs : walk create root links pos cs =
  match cs with
  | [] => Some pos
  | c :: r =>
      match kind_at root pos with
      | Some KDir =>
          if beqb c [] || beqb c (str ".") then walk create root links pos r
          else if beqb c (str "..") then walk create root links (removelast pos) r
          else match kind_at root (pos ++ [c]) with
               | None => match r with [] => if create then Some (pos ++ [c]) else None | _ => None end
               | Some (KLink t) =>
                   match links with
                   | O => None
                   | S l => walk create root l (if absolute t then [] else pos) (comps t ++ r)
                   end
               | Some _ => walk create root links (pos ++ [c]) r
               end
      | _ => None
      end
  end.
Proof. destruct links; destruct cs; reflexivity. Qed.

(** Induction over walks. *)
Lemma walk_ind (P : nat -> place -> list bytes -> Prop) :
  (forall links pos cs, (forall pos' r, (List.length r < List.length cs)%nat -> P links pos' r) -> (forall l pos' cs', (l < links)%nat -> P l pos' cs') -> P links pos cs) ->
  forall links pos cs, P links pos cs.
Proof.
  intros H links. induction links as [links IHl] using (well_founded_induction Wf_nat.lt_wf). intros pos cs. revert pos.
  remember (List.length cs) as k. revert cs Heqk. induction k as [k IHk] using (well_founded_induction Wf_nat.lt_wf). intros cs -> pos. apply H.
  - intros pos' r L. apply (IHk _ L r eq_refl).
  - intros l pos' cs' L. apply IHl. exact L.
Qed.
