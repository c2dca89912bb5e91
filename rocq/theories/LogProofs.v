(** Proofs about the log file. *)
From Coq Require Import ZArith Ascii String List Bool Lia.
From Verif Require Import Base RasterModel ListLib StrModel StrSpec StrProofs TimeModel FtoaModel FsModel PathModel PathSpec PathProofs PathProofs2 PathProofs4 AppProofs SubGridProofs2 LogModel LogSpec.
Import ListNotations.
Open Scope Z_scope.

(** ** Names lead to the same places after a file is created *)
Lemma walk_created A B q c : kind_at A q = None -> kind_at B q = Some (KFile c) -> (forall x, x <> q -> kind_at B x = kind_at A x) ->
  forall links pos cs, walk true B links pos cs = walk true A links pos cs.
Proof.
  intros KQ BQ BO. walk_induct. intros links pos cs IHc IHl. rewrite !walk_unfold. destruct cs as [|n r]; [reflexivity|].
  assert (L : (List.length r < List.length (n :: r))%nat) by (cbn; lia).
  destruct (place_dec pos q) as [->|NP]; [rewrite KQ, BQ; reflexivity|]. rewrite (BO pos NP).
  destruct (kind_at A pos) as [[| | |]|]; try reflexivity.
  destruct (beqb n [] || beqb n (str ".")); [apply IHc, L|]. destruct (beqb n (str "..")); [apply IHc, L|].
  destruct (place_dec (pos ++ [n]) q) as [E|NE].
  - rewrite E, KQ, BQ. rewrite walk_unfold. destruct r as [|x r]; [reflexivity|]. rewrite BQ. reflexivity.
  - rewrite (BO _ NE). destruct (kind_at A (pos ++ [n])) as [[| | |]|]; try (apply IHc, L); try reflexivity.
    destruct links as [|l]; [reflexivity|]. apply IHl. lia.
Qed.

Lemma existsb_eq {A} (f g : A -> bool) l : (forall x, f x = g x) -> existsb f l = existsb g l.
Proof. intros E. induction l as [|a l IH]; [reflexivity|]. cbn [existsb]. rewrite E, IH. reflexivity. Qed.

Section Logs.
Variable cwd : place.
Variables may may_write : place -> bool.
Notation resolve1 root := (resolve true root cwd).

(** What one call leaves at the place it leads to. *)
Definition added (root : tree) (q : place) (e : bytes) : option kind :=
  match kind_at root q with
  | Some (KFile c) => if may_write q then Some (KFile (c ++ e)) else Some (KFile c)
  | None => if may (removelast q) then Some (KFile e) else None
  | k => k
  end.

Lemma change_ok root root' q c : fs_ok root -> only_change root root' q (Some (KFile c)) -> (exists d n, q = d ++ [n] /\ kind_at root d = Some KDir /\ (kind_at root q = None -> entry_name n)) -> fs_ok root'.
Proof.
  intros [N R] [O1 O2] (d & n & -> & KD & EN). split.
  - intros p k K. destruct (place_dec p (d ++ [n])) as [->|NE]; [|rewrite O2 in K by exact NE; eapply N; exact K].
    destruct (kind_at root (d ++ [n])) as [k0|] eqn:K0; [eapply N; exact K0|]. apply Forall_app. split; [eapply N; exact KD|]. constructor; [auto|constructor].
  - rewrite O2; [exact R|]. destruct d; discriminate.
Qed.

Lemma log_step root t msg p : fs_ok root -> let root' := Log cwd may may_write root t msg p in
  fs_ok root' /\ (forall p', resolve1 root' p' = resolve1 root p') /\
  match resolve1 root (cbytes p) with
  | Some q => only_change root root' q (added root q (log_entry t msg))
  | None => root' = root
  end.
Proof.
  intros OK root'. unfold root', Log. clear root'. set (s := cbytes p). set (e := log_entry t msg).
  unfold PathModel.append_file. destruct (resolve1 root s) as [q|] eqn:R; [|auto].
  assert (SAME : added root q e = kind_at root q -> fs_ok root /\ (forall p', resolve1 root p' = resolve1 root p') /\ only_change root root q (added root q e)).
  { intros E. split; [exact OK|]. split; [reflexivity|]. split; [symmetry; exact E|reflexivity]. }
  assert (CR : forall c, (exists d n, q = d ++ [n] /\ kind_at root d = Some KDir /\ (kind_at root q = None -> entry_name n)) ->
    (kind_at root q = None \/ exists o, kind_at root q = Some (KFile o)) -> added root q e = Some (KFile c) ->
    let root' := PathModel.put root (removelast q) (last q []) (Some (TFile c)) in
    fs_ok root' /\ (forall p', resolve1 root' p' = resolve1 root p') /\ only_change root root' q (added root q e)).
  { intros c P K A root'. assert (OC : only_change root root' q (Some (KFile c))).
    { apply file_put; [destruct P as (d & n & E & KD & _); eauto|exact K]. }
    split; [eapply change_ok; eauto|]. split; [|rewrite A; exact OC]. intros p'. destruct K as [K|[o K]].
    - destruct OC as [O1 O2]. unfold resolve. destruct p' as [|x p']; [reflexivity|]. eapply walk_created; eauto.
    - symmetry. apply resolve_shape. eapply shape_change; eauto. }
  unfold added in *. destruct (kind_at root q) as [[o| | |]|] eqn:K.
  - destruct (may_write q) eqn:M; [|apply SAME; reflexivity]. apply CR; [|eauto|reflexivity].
    destruct (file_parent root q o OK K) as (d & n & E & KD). exists d, n. split; [exact E|]. split; [exact KD|]. discriminate.
  - apply SAME. reflexivity.
  - destruct (may_write q); apply SAME; reflexivity.
  - apply SAME. reflexivity.
  - destruct (may (removelast q)) eqn:M; [|apply SAME; reflexivity]. apply CR; [|auto|reflexivity].
    destruct (resolve_true_kind cwd root s q R) as [[(k & K' & _) _]|(_ & _ & d & n & E & KD & EN)]; [congruence|]. exists d, n. auto.
Qed.

Notation run := (run_logs cwd may may_write).

Lemma run_cons root c calls : run root (c :: calls) = run (Log cwd may may_write root (fst (fst c)) (snd (fst c)) (snd c)) calls.
Proof. reflexivity. Qed.

Lemma leads_ext root root' q c : (forall p', resolve1 root' p' = resolve1 root p') -> leads cwd root' q c = leads cwd root q c.
Proof. intros E. unfold leads. rewrite E. reflexivity. Qed.

Lemma lines_ext root root' q calls : (forall p', resolve1 root' p' = resolve1 root p') -> lines_for cwd root' q calls = lines_for cwd root q calls.
Proof. intros E. unfold lines_for. rewrite (filter_ext (leads cwd root' q) (leads cwd root q) (fun c => leads_ext root root' q c E)). reflexivity. Qed.

Lemma leads_true root q c : leads cwd root q c = true <-> resolve1 root (cbytes (snd c)) = Some q.
Proof.
  unfold leads. destruct (resolve1 root (cbytes (snd c))) as [x|]; [|split; discriminate]. destruct (list_eq_dec (list_eq_dec ascii_dec) x q) as [->|N]; [tauto|].
  split; [discriminate|]. intros [= E]. congruence.
Qed.

Lemma lines_cons root q c calls : lines_for cwd root q (c :: calls) = (if leads cwd root q c then log_entry (fst (fst c)) (snd (fst c)) else []) ++ lines_for cwd root q calls.
Proof. unfold lines_for. cbn [filter]. destruct (leads cwd root q c); reflexivity. Qed.

Lemma run_resolve calls : forall root, fs_ok root -> fs_ok (run root calls) /\ forall p', resolve1 (run root calls) p' = resolve1 root p'.
Proof.
  induction calls as [|c calls IH]; intros root OK; [split; [exact OK|reflexivity]|]. rewrite run_cons.
  destruct (log_step root (fst (fst c)) (snd (fst c)) (snd c) OK) as (OK' & R & _). destruct (IH _ OK') as [A B]. split; [exact A|]. intros p'. rewrite B. apply R.
Qed.

Lemma run_file calls : forall root q o, fs_ok root -> kind_at root q = Some (KFile o) -> may_write q = true ->
  kind_at (run root calls) q = Some (KFile (o ++ lines_for cwd root q calls)).
Proof.
  induction calls as [|c calls IH]; intros root q o OK K M; [unfold lines_for; cbn [filter map concat]; rewrite app_nil_r; exact K|].
  rewrite run_cons, lines_cons. destruct (log_step root (fst (fst c)) (snd (fst c)) (snd c) OK) as (OK' & R & S). set (root' := Log _ _ _ _ _ _ _) in *.
  rewrite <- (lines_ext root root' q calls R). destruct (leads cwd root q c) eqn:L.
  - apply leads_true in L. rewrite L in S. destruct S as [S _]. unfold added in S. rewrite K, M in S. rewrite (IH root' q _ OK' S M), <- app_assoc. reflexivity.
  - assert (K' : kind_at root' q = Some (KFile o)).
    { destruct (resolve1 root (cbytes (snd c))) as [x|] eqn:X; [|rewrite S; exact K]. destruct S as [_ S]. rewrite S; [exact K|]. intros ->. apply leads_true in X. congruence. }
    rewrite (IH root' q o OK' K' M). reflexivity.
Qed.

Lemma run_new calls : forall root q, fs_ok root -> kind_at root q = None -> may (removelast q) = true -> may_write q = true ->
  kind_at (run root calls) q = if existsb (leads cwd root q) calls then Some (KFile (lines_for cwd root q calls)) else None.
Proof.
  induction calls as [|c calls IH]; intros root q OK K M M'; [exact K|].
  rewrite run_cons, lines_cons. cbn [existsb]. destruct (log_step root (fst (fst c)) (snd (fst c)) (snd c) OK) as (OK' & R & S). set (root' := Log _ _ _ _ _ _ _) in *.
  rewrite <- (lines_ext root root' q calls R). destruct (leads cwd root q c) eqn:L; cbn [orb].
  - apply leads_true in L. rewrite L in S. destruct S as [S _]. unfold added in S. rewrite K, M in S. rewrite (run_file calls root' q _ OK' S M'). reflexivity.
  - assert (K' : kind_at root' q = None).
    { destruct (resolve1 root (cbytes (snd c))) as [x|] eqn:X; [|rewrite S; exact K]. destruct S as [_ S]. rewrite S; [exact K|]. intros ->. apply leads_true in X. congruence. }
    rewrite (IH root' q OK' K' M M'). cbn [app]. rewrite (existsb_eq (leads cwd root' q) (leads cwd root q) calls (fun c => leads_ext root root' q c R)). reflexivity.
Qed.

Lemma run_other calls : forall root x, fs_ok root ->
  (forall c, In c calls -> leads cwd root x c = true ->
     match kind_at root x with Some (KFile _) => may_write x = false | None => may (removelast x) = false | _ => True end) ->
  kind_at (run root calls) x = kind_at root x.
Proof.
  induction calls as [|c calls IH]; intros root x OK H; [reflexivity|]. rewrite run_cons.
  destruct (log_step root (fst (fst c)) (snd (fst c)) (snd c) OK) as (OK' & R & S). set (root' := Log _ _ _ _ _ _ _) in *.
  assert (K' : kind_at root' x = kind_at root x).
  { destruct (resolve1 root (cbytes (snd c))) as [y|] eqn:X; [|rewrite S; reflexivity]. destruct (place_dec x y) as [->|N]; [|apply S, N].
    destruct S as [S _]. rewrite S. apply leads_true in X. specialize (H c (or_introl eq_refl) X). unfold added. destruct (kind_at root y) as [[| | |]|]; try reflexivity; rewrite H; reflexivity. }
  rewrite IH; [exact K'|exact OK'|]. intros c' I L. rewrite K'. apply (H c' (or_intror I)). rewrite <- (leads_ext root root' x c' R). exact L.
Qed.
End Logs.

(** ** Time stamps *)
Lemma in_range lo hi z : lo <= z <= hi -> In z (map (fun k => lo + k) (zseq (hi - lo + 1))).
Proof. intros B. apply in_map_iff. exists (z - lo). split; [lia|]. apply zseq_In. lia. Qed.

Lemma on_range (p : Z -> bool) lo hi : forallb p (map (fun k => lo + k) (zseq (hi - lo + 1))) = true -> forall z, lo <= z <= hi -> p z = true.
Proof. intros F z B. rewrite forallb_forall in F. apply F, in_range, B. Qed.

Lemma on_range2 (f : Z -> bytes) lo hi : forallb (fun a => forallb (fun b => negb (beqb (f a) (f b)) || (a =? b)) (map (fun k => lo + k) (zseq (hi - lo + 1)))) (map (fun k => lo + k) (zseq (hi - lo + 1))) = true ->
  forall a b, lo <= a <= hi -> lo <= b <= hi -> f a = f b -> a = b.
Proof.
  intros F a b A B E. pose proof (on_range _ _ _ F a A) as G. cbv beta in G. pose proof (on_range _ _ _ G b B) as G'. cbv beta in G'.
  rewrite E, (proj2 (beqb_eq _ _) eq_refl) in G'. cbn [negb orb] in G'. lia.
Qed.

Definition body (t : tm) : bytes :=
  name_of day_names (tm_wday t) ++ " "%char :: name_of month_names (tm_mon t) ++ pad3 (tm_mday t) ++
  " "%char :: pad2 (tm_hour t) ++ ":"%char :: pad2 (tm_min t) ++ ":"%char :: pad2 (tm_sec t) ++ " "%char :: itoa (tm_year t + 1900).

Definition okb (n : nat) (s : bytes) : bool := (List.length s =? n)%nat && negb (existsb (fun c => if ascii_dec c NL then true else false) s).
Lemma okb_spec n s : okb n s = true -> List.length s = n /\ ~ In NL s.
Proof.
  unfold okb. rewrite andb_true_iff, negb_true_iff. intros [A B]. split; [apply Nat.eqb_eq; exact A|]. intros I. assert (existsb (fun c => if ascii_dec c NL then true else false) s = true); [|congruence].
  apply existsb_exists. exists NL. split; [exact I|]. destruct (ascii_dec NL NL); [reflexivity|congruence].
Qed.

Lemma parts t : plain_time t ->
  okb 3 (name_of day_names (tm_wday t)) = true /\ okb 3 (name_of month_names (tm_mon t)) = true /\ okb 3 (pad3 (tm_mday t)) = true /\
  okb 2 (pad2 (tm_hour t)) = true /\ okb 2 (pad2 (tm_min t)) = true /\ okb 2 (pad2 (tm_sec t)) = true /\ okb 4 (itoa (tm_year t + 1900)) = true.
Proof.
  intros (A & B & C & D & E & F & G).
  split; [apply (on_range (fun z => okb 3 (name_of day_names z)) 0 6); [vm_compute; reflexivity|exact A]|].
  split; [apply (on_range (fun z => okb 3 (name_of month_names z)) 0 11); [vm_compute; reflexivity|exact B]|].
  split; [apply (on_range (fun z => okb 3 (pad3 z)) 1 31); [vm_compute; reflexivity|exact C]|].
  split; [apply (on_range (fun z => okb 2 (pad2 z)) 0 23); [vm_compute; reflexivity|exact D]|].
  split; [apply (on_range (fun z => okb 2 (pad2 z)) 0 59); [vm_compute; reflexivity|exact E]|].
  split; [apply (on_range (fun z => okb 2 (pad2 z)) 0 60); [vm_compute; reflexivity|exact F]|].
  apply (on_range (fun z => okb 4 (itoa z)) 1000 9999); [vm_compute; reflexivity|exact G].
Qed.

Lemma stamp_body t : plain_time t -> timestamp t = body t /\ List.length (timestamp t) = 24%nat /\ ~ In NL (timestamp t).
Proof.
  intros P. destruct (parts t P) as (A & B & C & D & E & F & G). apply okb_spec in A, B, C, D, E, F, G.
  assert (LB : List.length (body t) = 24%nat).
  { unfold body. repeat (first [rewrite app_length | progress (cbn [List.length])]). lia. }
  assert (EB : timestamp t = body t).
  { unfold timestamp, asctime. match goal with |- removelast (firstn 25 ?x) = _ => replace x with (body t ++ [NL]) end.
    - rewrite firstn_all2 by (rewrite app_length; cbn [List.length]; lia). apply removelast_last.
    - unfold body. repeat (rewrite <- app_assoc || rewrite <- app_comm_cons). reflexivity. }
  rewrite EB. split; [reflexivity|]. split; [exact LB|]. unfold body. intros I.
  repeat (apply in_app_iff in I; destruct I as [I|I]; [tauto|]; try (destruct I as [I|I]; [discriminate|])). tauto.
Qed.

Lemma app_len {A} (a a' b b' : list A) : List.length a = List.length a' -> a ++ b = a' ++ b' -> a = a' /\ b = b'.
Proof.
  revert a'. induction a as [|x a IH]; intros [|y a'] L E; try discriminate; [auto|]. cbn [app] in E. injection E as -> E. cbn [List.length] in L.
  destruct (IH a' ltac:(lia) E) as [-> ->]. auto.
Qed.

Lemma stamp_inj t u : plain_time t -> plain_time u -> timestamp t = timestamp u -> same_time t u.
Proof.
  intros P Q E. rewrite (proj1 (stamp_body t P)), (proj1 (stamp_body u Q)) in E. unfold body in E.
  destruct (parts t P) as (A & B & C & D & F & G & H). destruct (parts u Q) as (A' & B' & C' & D' & F' & G' & H').
  apply okb_spec in A, B, C, D, F, G, H, A', B', C', D', F', G', H'.
  destruct P as (PA & PB & PC & PD & PE & PF & PG). destruct Q as (QA & QB & QC & QD & QE & QF & QG).
  apply app_len in E; [|lia]. destruct E as [E1 E]. injection E as E. apply app_len in E; [|lia]. destruct E as [E2 E]. apply app_len in E; [|lia]. destruct E as [E3 E].
  injection E as E. apply app_len in E; [|lia]. destruct E as [E4 E]. injection E as E. apply app_len in E; [|lia]. destruct E as [E5 E]. injection E as E. apply app_len in E; [|lia]. destruct E as [E6 E].
  injection E as E7.
  assert (Y : tm_year t + 1900 = tm_year u + 1900) by (apply itoa_inj; [unfold in_int, INT_MIN, INT_MAX; lia|unfold in_int, INT_MIN, INT_MAX; lia|exact E7]).
  unfold same_time. split; [lia|].
  split; [apply (on_range2 (name_of month_names) 0 11); [vm_compute; reflexivity|exact PB|exact QB|exact E2]|].
  split; [apply (on_range2 pad3 1 31); [vm_compute; reflexivity|exact PC|exact QC|exact E3]|].
  split; [apply (on_range2 pad2 0 23); [vm_compute; reflexivity|exact PD|exact QD|exact E4]|].
  split; [apply (on_range2 pad2 0 59); [vm_compute; reflexivity|exact PE|exact QE|exact E5]|].
  split; [apply (on_range2 pad2 0 60); [vm_compute; reflexivity|exact PF|exact QF|exact E6]|].
  apply (on_range2 (name_of day_names) 0 6); [vm_compute; reflexivity|exact PA|exact QA|exact E1].
Qed.

(** ** Lines *)
Lemma line_cut (a a' b b' : bytes) c : ~ In c a -> ~ In c a' -> a ++ c :: b = a' ++ c :: b' -> a = a' /\ b = b'.
Proof.
  revert a'. induction a as [|x a IH]; intros [|y a'] N N' E; cbn [app] in E.
  - injection E as E. auto.
  - injection E as <- E. exfalso. apply N'. left. reflexivity.
  - injection E as -> E. exfalso. apply N. left. reflexivity.
  - injection E as <- E. destruct (IH a' ltac:(intros I; apply N; right; exact I) ltac:(intros I; apply N'; right; exact I) E) as [-> ->]. auto.
Qed.

Lemma entries_inj : forall h h' : list (tm * bytes),
  Forall (fun c => plain_time (fst c) /\ ~ In NL (snd c)) h -> Forall (fun c => plain_time (fst c) /\ ~ In NL (snd c)) h' ->
  concat (map (fun c => log_entry (fst c) (snd c)) h) = concat (map (fun c => log_entry (fst c) (snd c)) h') ->
  Forall2 (fun c c' => same_time (fst c) (fst c') /\ snd c = snd c') h h'.
Proof.
  assert (NE : forall t m (x : bytes), [] = log_entry t m ++ x -> False).
  { intros t m x E. unfold log_entry in E. destruct (timestamp t); discriminate E. }
  induction h as [|[t m] h IH]; intros [|[u m'] h'] F F' E; cbn [map concat fst snd] in E.
  - constructor.
  - destruct (NE _ _ _ E).
  - destruct (NE _ _ _ (eq_sym E)).
  - inversion F as [|? ? [P N] F1]; inversion F' as [|? ? [P' N'] F1']; subst. cbn [fst snd] in *.
    destruct (stamp_body t P) as (_ & L & NS). destruct (stamp_body u P') as (_ & L' & NS').
    assert (E' : (timestamp t ++ str ": " ++ m) ++ NL :: concat (map (fun c => log_entry (fst c) (snd c)) h) = (timestamp u ++ str ": " ++ m') ++ NL :: concat (map (fun c => log_entry (fst c) (snd c)) h')).
    { unfold log_entry at 1 3 in E. rewrite <- !app_assoc in *. cbn [app] in *. exact E. }
    apply line_cut in E'.
    + destruct E' as [E1 E2]. apply app_len in E1; [|lia]. destruct E1 as [E1 E3]. apply app_len in E3; [|reflexivity]. destruct E3 as [_ E3].
      constructor; [split; [apply stamp_inj; assumption|exact E3]|]. apply IH; assumption.
    + intros I. apply in_app_iff in I. destruct I as [I|[I|[I|I]]]; [exact (NS I)|discriminate|discriminate|exact (N I)].
    + intros I. apply in_app_iff in I. destruct I as [I|[I|[I|I]]]; [exact (NS' I)|discriminate|discriminate|exact (N' I)].
Qed.
