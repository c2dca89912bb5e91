(** Names relative to the directory of the program. *)
From Coq Require Import ZArith Lia Ascii String List Bool.
From Verif Require Import Base ListLib StrModel StrProofs MapModel MapProofs FsModel FsProofs PathModel PathSpec PathProofs PathProofs2 PathProofs3 PathProofs4.
Import ListNotations.
Open Scope Z_scope.

Lemma walk_down_rest create root links : forall cs d rest, Forall entry_name cs -> kind_at root (d ++ cs) = Some KDir ->
  walk create root links d (cs ++ rest) = walk create root links (d ++ cs) rest.
Proof.
  induction cs as [|c cs IH]; intros d rest F K; [rewrite app_nil_r; reflexivity|]. cbn [app]. rewrite walk_unfold.
  inversion F as [|? ? (N1 & N2 & N3 & N4) F']; subst. rewrite (kind_prefix root (c :: cs) d KDir K) by discriminate.
  apply beqb_false in N1, N2, N3. rewrite N1, N2, N3. cbn [orb].
  assert (K' : kind_at root ((d ++ [c]) ++ cs) = Some KDir) by (rewrite <- app_assoc; exact K).
  assert (KC : kind_at root (d ++ [c]) = Some KDir).
  { destruct cs as [|c' cs]; [rewrite app_nil_r in K'; exact K'|]. eapply kind_prefix; [exact K'|discriminate]. }
  rewrite KC, (IH (d ++ [c]) rest F' K'), <- app_assoc. reflexivity.
Qed.

Lemma comps_dir d rel : Forall entry_name d -> comps (dir_text d ++ rel) = [] :: d ++ comps rel.
Proof.
  intros F. unfold dir_text. rewrite <- app_assoc. cbn [app]. rewrite comps_app. destruct d as [|c d]; [reflexivity|].
  change (concat (map (fun c0 => SEP :: c0) (c :: d))) with (text (c :: d)). rewrite comps_text by exact F. reflexivity.
Qed.

Lemma dir_absolute d rel : absolute (dir_text d ++ rel) = true.
Proof. unfold dir_text. destruct d as [|c d]; cbn [map concat app absolute]; (destruct (ascii_dec SEP SEP); [reflexivity|congruence]). Qed.

Lemma app_path d n : entry_name n -> (Z.of_nat (List.length (text (d ++ [n]))) < 4096) -> GetAppPath (Some (text (d ++ [n]))) = dir_text d.
Proof.
  intros (_ & _ & _ & NS) L. unfold GetAppPath. replace (4096 <=? Z.of_nat (List.length (text (d ++ [n])))) with false by lia.
  assert (E : text (d ++ [n]) = concat (map (fun c => SEP :: c) d) ++ SEP :: n).
  { unfold text. destruct (d ++ [n]) eqn:X; [destruct d; discriminate|]. rewrite <- X, map_app, concat_app. cbn [map concat]. rewrite app_nil_r. reflexivity. }
  rewrite E, find_last_some by exact NS. unfold dir_text.
  rewrite firstn_app. rewrite firstn_all2 by lia. f_equal. replace (List.length _ + 1 - List.length _)%nat with 1%nat by lia. reflexivity.
Qed.

Lemma resolve_dir create root cwd d rel : fs_ok root -> kind_at root d = Some KDir -> rel <> [] -> absolute rel = false ->
  resolve create root cwd (dir_text d ++ rel) = resolve create root d rel.
Proof.
  intros [NO KR] K NE A. rewrite !resolve_eq; [|exact NE|intros X; apply app_eq_nil in X; tauto].
  rewrite dir_absolute, A, comps_dir by (eapply NO; exact K). rewrite walk_unfold, KR, beqb_self. cbn [orb]. apply (walk_down_rest create root MAXLINKS d [] (comps rel)); [eapply NO; exact K|exact K].
Qed.

Lemma make_ok cwd may root p b root' : fs_ok root -> MakeDirectory cwd may root p = (b, root') -> fs_ok root'.
Proof.
  intros OK E. unfold MakeDirectory in E. destruct (DirectoryExists _ _); [injection E as _ <-; exact OK|].
  destruct (mkdir_cases cwd may _ _ _ _ OK E) as [(_ & ->)|(_ & d & n & es & _ & _ & EN & _ & e & _ & KE & KN & _ & ->)]; [exact OK|].
  apply (fs_ok_change root _ (e ++ [n]) KDir OK); [apply dir_put; assumption| |destruct e; discriminate].
  apply Forall_app. split; [|constructor; [exact EN|constructor]]. destruct OK as [NO _]. eapply NO. exact KE.
Qed.

Lemma make_twice cwd may root p root' : fs_ok root -> MakeDirectory cwd may root p = (true, root') -> stat cwd root' p = Some KDir /\ MakeDirectory cwd may root' p = (true, root').
Proof.
  intros OK E. pose proof (make_ok _ _ _ _ _ _ OK E) as OK'.
  assert (ST : stat cwd root' p = Some KDir).
  { destruct (make_cases cwd may _ _ _ _ OK E) as [(_ & -> & ST)|[(X & _)|(_ & q & R & _ & _ & [KQ _] & _)]]; [exact ST|discriminate|]. unfold stat. rewrite R. exact KQ. }
  split; [exact ST|]. unfold MakeDirectory. replace (DirectoryExists _ _) with true; [reflexivity|]. symmetry. apply dir_exists; [exact OK'|]. rewrite stat_abs; [exact ST|exact OK'].
Qed.

Lemma delete_ok cwd may root p r root' : fs_ok root -> DeleteExistedFile cwd may root p = (r, root') -> fs_ok root'.
Proof.
  intros OK. rewrite delete_eq by exact OK. destruct (resolve false root cwd p) as [q|] eqn:E; [|intros [= _ <-]; exact OK].
  destruct (removable_at may root q) eqn:RM; intros [= _ <-]; [|exact OK]. destruct (resolve_kind _ _ _ _ E) as (k & K & _).
  destruct (removed may root q RM) as ([O1 O2] & _ & NQ & _); [congruence|]. destruct OK as [NO KR]. split.
  - intros x j J. destruct (place_dec x q) as [->|X]; [congruence|]. rewrite O2 in J by exact X. eapply NO. exact J.
  - rewrite O2 by auto. exact KR.
Qed.

(** The limit on links keeps a link from being its own target. *)
Lemma delete_link cwd may root dp n e t q k : fs_ok root -> dp <> [] -> entry_name n -> resolve false root cwd dp = Some e -> kind_at root (e ++ [n]) = Some (KLink t) ->
  resolve false root cwd (in_dir dp n) = Some q -> kind_at root q = Some k -> k <> KDir -> may (removelast q) = true ->
  exists root', DeleteExistedFile cwd may root (in_dir dp n) = (0, root') /\ kind_at root' q = None /\ kind_at root' (e ++ [n]) = Some (KLink t).
Proof.
  intros OK ND EN RD KL RQ KQ NK M. destruct (delete_file cwd may root _ q k OK RQ KQ NK M) as (root' & E & [O1 O2]).
  exists root'. split; [exact E|]. split; [exact O1|]. rewrite O2; [exact KL|]. intros X. destruct (resolve_kind _ _ _ _ RQ) as (k' & K' & S). rewrite <- X, KL in K'. injection K' as <-. exact S.
Qed.

(** Deciding [fs_ok] for a tree given. *)
Definition nameb (n : bytes) : bool := negb (dot_name n) && negb (existsb (fun c => if ascii_dec c SEP then true else false) n).
Fixpoint good (t : tree) : bool := match t with TDir es => forallb (fun e => nameb (fst e) && good (snd e)) es | _ => true end.

Lemma nameb_ok n : nameb n = true -> entry_name n.
Proof.
  unfold nameb, dot_name. intros H. apply andb_prop in H as [A B]. apply negb_true_iff in A, B. apply orb_false_iff in A as [A A3]. apply orb_false_iff in A as [A1 A2].
  apply beqb_false in A1, A2, A3. split; [exact A1|]. split; [exact A2|]. split; [exact A3|]. intros I.
  assert (X : existsb (fun c => if ascii_dec c SEP then true else false) n = true); [|congruence].
  apply existsb_exists. exists SEP. split; [exact I|]. destruct (ascii_dec SEP SEP); congruence.
Qed.

Lemma good_ok es : good (TDir es) = true -> fs_ok (TDir es).
Proof.
  intros G. split; [|reflexivity]. intros p k K. revert k K. generalize (TDir es) as t, G. clear es G.
  induction p as [|n p IH] using list_ind; intros t G k K; [constructor|]. unfold kind_at in K. cbn [get] in K.
  destruct t as [| | |es]; try discriminate K. destruct (lookup es n) as [t'|] eqn:L; [|discriminate K].
  cbn [good] in G. rewrite forallb_forall in G. apply MapProofs.lookup_In in L. specialize (G _ L). cbn [fst snd] in G. apply andb_prop in G as [G1 G2].
  constructor; [apply nameb_ok; exact G1|]. eapply IH; [exact G2|exact K].
Qed.
