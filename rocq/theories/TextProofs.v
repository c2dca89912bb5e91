(** Proofs about arrays in text files. *)
From Coq Require Import ZArith Ascii List Bool Lia Arith.
From Verif Require Import Base StrModel StrSpec StrProofs FloatModel NumModel NumSpec NumProofs AscProofs2 TextModel TextSpec.
Import ListNotations.
Open Scope Z_scope.

Lemma skip_ws_word g w rest : all_space g -> w <> [] -> no_space w -> skip_ws (g ++ w ++ rest) = w ++ rest.
Proof.
  intros Hg Hn Hw. rewrite (StrProofs.skip_ws_app g _ Hg). destruct w as [|c w]; [congruence|].
  inversion Hw; subst. cbn. match goal with H : isspace c = false |- _ => rewrite H end. reflexivity.
Qed.

Lemma itoa_nonempty z : itoa z <> [].
Proof.
  unfold itoa. destruct (Z.ltb_spec z 0); [discriminate|]. apply dec_digits. assumption.
Qed.

Lemma space_no_digit rest : (rest = [] \/ exists c u, rest = c :: u /\ isspace c = true) -> no_digit rest.
Proof.
  intros [->|(c & u & -> & H)]; [exact I|]. cbn. destruct (isdigit c) eqn:E; [|reflexivity].
  assert (F : no_space [c]) by (apply isdigit_no_space; repeat constructor; exact E). inversion F; congruence.
Qed.

Lemma dec_head z r : 0 <= z -> match dec z ++ r with c :: _ => c <> "-"%char /\ c <> "+"%char | [] => True end.
Proof.
  intros H. destruct (dec_digits z H) as (N & F & _). destruct (dec z) as [|c d]; [congruence|]. cbn.
  inversion F; subst. split; intros ->; discriminate.
Qed.

Lemma get_int_reads z : in_int z -> reads get_int (itoa z) z.
Proof.
  intros HI. split; [apply itoa_nonempty|]. split; [apply itoa_no_space|].
  intros g rest Hg Hr. unfold get_int. cbn [snd fst negb].
  rewrite (skip_ws_word g (itoa z) rest Hg (itoa_nonempty z) (itoa_no_space z)).
  destruct (itoa z ++ rest) as [|c0 t0] eqn:E0.
  { exfalso. apply (itoa_nonempty z). destruct (itoa z); [reflexivity|discriminate]. }
  rewrite <- E0. clear E0 c0 t0.
  assert (S : get_sign (itoa z ++ rest) = ((z <? 0), dec (Z.abs z) ++ rest)).
  { unfold itoa. destruct (Z.ltb_spec z 0) as [L|L].
    - rewrite Z.abs_neq by lia. reflexivity.
    - rewrite Z.abs_eq by lia. pose proof (dec_head z rest L) as K.
      exact (get_sign_ok false [] (dec z ++ rest) (sign_of_ok false) K). }
  rewrite S. destruct (dec_digits (Z.abs z) ltac:(lia)) as (N & F & V).
  rewrite (span_digits_app _ _ F (space_no_digit rest Hr)).
  destruct (dec (Z.abs z)) as [|c d] eqn:E; [congruence|]. rewrite <- E. rewrite <- E in N, F, V.
  rewrite (dval_ok _ F), V.
  assert (Hz : (if z <? 0 then - Z.abs z else Z.abs z) = z) by (destruct (Z.ltb_spec z 0); lia).
  rewrite Hz. destruct HI as [H1 H2].
  destruct (Z.ltb_spec z INT_MIN); [lia|]. destruct (Z.ltb_spec INT_MAX z); [lia|]. reflexivity.
Qed.

Lemma get_int_stops : stops get_int.
Proof.
  intros s good H. unfold get_int. cbn [snd fst]. destruct good; [|split; reflexivity].
  destruct H as [H|H]; [discriminate|]. cbn [negb]. rewrite (StrProofs.skip_ws_all s H). split; reflexivity.
Qed.

Lemma get_word_ok g w rest : all_space g -> w <> [] -> no_space w ->
  (rest = [] \/ exists c u, rest = c :: u /\ isspace c = true) -> get_word (g ++ w ++ rest, true) = (rest, true).
Proof.
  intros Hg Hn Hw Hr. unfold get_word. cbn [snd fst negb]. rewrite (skip_ws_word g w rest Hg Hn Hw).
  destruct (w ++ rest) as [|c t] eqn:E.
  { destruct w; [congruence|discriminate]. }
  rewrite <- E, (span_word_app w rest Hw Hr). reflexivity.
Qed.

Lemma Words_inv s w ws : Words s (w :: ws) -> exists g rest, s = g ++ w ++ rest /\ all_space g /\ w <> [] /\ no_space w /\
  (rest = [] \/ exists c u, rest = c :: u /\ isspace c = true) /\ Words rest ws.
Proof. intros H. inversion H; subst. exists g, rest. auto 10. Qed.

Lemma Words_nil_inv s : Words s [] -> all_space s.
Proof. intros H. inversion H; subst. assumption. Qed.

Lemma get_word_words s w ws : Words s (w :: ws) -> exists rest, get_word (s, true) = (rest, true) /\ Words rest ws.
Proof.
  intros H. apply Words_inv in H. destruct H as (g & rest & -> & Hg & Hn & Hw & Hr & HW). exists rest. split; [|exact HW].
  apply get_word_ok; assumption.
Qed.

Lemma reads_words {T} (get : stream -> stream * option T) s w ws x : reads get w x -> Words s (w :: ws) ->
  exists rest, get (s, true) = ((rest, true), Some x) /\ Words rest ws.
Proof.
  intros (_ & _ & R) H. apply Words_inv in H. destruct H as (g & rest & -> & Hg & Hn & Hw & Hr & HW).
  exists rest. split; [apply R; assumption|exact HW].
Qed.

Lemma get_rows_words s w k ws rows0 : in_int k -> Words s (w :: itoa k :: ws) ->
  exists rest, get_rows (s, true) rows0 = Ok ((rest, true), k) /\ Words rest ws.
Proof.
  intros HI H. destruct (get_word_words _ _ _ H) as (r1 & E1 & W1).
  destruct (reads_words get_int r1 _ _ k (get_int_reads k HI) W1) as (r2 & E2 & W2).
  exists r2. split; [|exact W2]. unfold get_rows. rewrite E1, E2. reflexivity.
Qed.

Lemma small_int z : Z.abs z < 1000000 -> in_int z.
Proof. unfold in_int, INT_MIN, INT_MAX. lia. Qed.

Fixpoint set_count {T} (l : list (option T)) : nat :=
  match l with [] => 0%nat | Some _ :: t => S (set_count t) | None :: t => set_count t end.

Lemma set_count_app {T} (l1 l2 : list (option T)) : set_count (l1 ++ l2) = (set_count l1 + set_count l2)%nat.
Proof. induction l1 as [|[x|] l1 IH]; cbn; lia. Qed.

Lemma set_count_some {T} (xs : list T) : set_count (map Some xs) = length xs.
Proof. induction xs; cbn; lia. Qed.

(** At most [n] numbers are left to read. *)
Definition at_most (n : nat) (st : stream) : Prop :=
  snd st = false \/ exists zs, Words (fst st) (map itoa zs) /\ Forall (fun z => Z.abs z < 1000000) zs /\ (length zs <= n)%nat.

Lemma at_most_le n m st : (n <= m)%nat -> at_most n st -> at_most m st.
Proof. intros L [H|(zs & W & F & K)]; [left; exact H|right; exists zs; repeat split; auto; lia]. Qed.

Lemma at_most_get {U} (g : stream -> stream * option U) (v : Z -> U) n st :
  (forall z, Z.abs z < 1000000 -> reads g (itoa z) (v z)) -> stops g -> at_most n st ->
  match snd (g st) with None => at_most n (fst (g st)) | Some _ => (1 <= n)%nat /\ at_most (n - 1) (fst (g st)) end.
Proof.
  intros HR HS H. destruct st as [s good].
  assert (STOP : good = false \/ all_space s -> match snd (g (s, good)) with None => at_most n (fst (g (s, good)))
    | Some _ => (1 <= n)%nat /\ at_most (n - 1) (fst (g (s, good))) end).
  { intros K. destruct (HS s good K) as [H1 H2]. rewrite H2. left. exact H1. }
  destruct H as [H|(zs & W & F & L)]; [apply STOP; left; exact H|].
  destruct good; [|apply STOP; left; reflexivity]. cbn [fst] in W. destruct zs as [|z zs].
  { apply STOP. right. apply Words_nil_inv, W. }
  inversion F; subst. cbn [map] in W. destruct (reads_words g s _ _ _ (HR z ltac:(assumption)) W) as (r & E & W2).
  rewrite E. cbn [snd fst length] in *. split; [lia|]. right. exists zs. repeat split; auto; lia.
Qed.

Lemma get_rows_none file rows0 : match file with None => True | Some s => exists ws, Words s ws /\ (length ws <= 1)%nat end ->
  exists st, snd st = false /\
    get_rows (open_stream file) rows0 = match rows0 with Some z => Ok (st, z) | None => UB end.
Proof.
  intros H. unfold get_rows.
  assert (K : exists s good, get_word (open_stream file) = (s, good) /\ (good = false \/ all_space s)).
  { destruct file as [s|]; [|exists [], false; split; [reflexivity|auto]].
    destruct H as (ws & W & L). cbn [open_stream]. destruct ws as [|w ws].
    - apply Words_nil_inv in W. exists [], false. unfold get_word. cbn [fst snd negb]. rewrite (StrProofs.skip_ws_all s W). auto.
    - destruct ws; [|cbn in L; lia]. destruct (get_word_words _ _ _ W) as (r & E & W1). exists r, true.
      apply Words_nil_inv in W1. auto. }
  destruct K as (s & good & E & K). rewrite E. destruct (get_int_stops s good K) as [H1 H2].
  destruct (get_int (s, good)) as [st x]. cbn in H1, H2. subst. exists st. split; [exact H1|].
  destruct rows0; reflexivity.
Qed.

Section Reading.
Context {T : Type}.
Variable get : stream -> stream * option T.

Lemma get_many_words : forall ts xs s ws, Forall2 (reads get) ts xs -> Words s (ts ++ ws) ->
  exists rest, get_many get (length xs) (s, true) = ((rest, true), map Some xs) /\ Words rest ws.
Proof.
  intros ts xs s ws F. revert s. induction F as [|t x ts xs R F IH]; intros s H.
  - exists s. split; [reflexivity|exact H].
  - cbn [app] in H. destruct (reads_words get s t (ts ++ ws) x R H) as (r & E & W).
    destruct (IH r W) as (r2 & E2 & W2). exists r2. split; [|exact W2].
    cbn [length get_many map]. rewrite E, E2. reflexivity.
Qed.

Lemma get_many_stops (HS : stops get) n : forall s good, good = false \/ all_space s ->
  exists st, get_many get n (s, good) = (st, repeat None n) /\ (snd st = false \/ (n = 0%nat /\ st = (s, good))).
Proof.
  induction n as [|n IH]; intros s good H.
  - exists (s, good). split; [reflexivity|]. right. split; reflexivity.
  - destruct (HS s good H) as [H1 H2]. cbn [get_many repeat]. destruct (get (s, good)) as [[s1 g1] x].
    cbn in H1, H2. subst. destruct (IH s1 false (or_introl eq_refl)) as (st & E & K). exists st. rewrite E.
    split; [reflexivity|]. left. destruct K as [K|[_ ->]]; [exact K|reflexivity].
Qed.

Lemma get_many_app n m st : get_many get (n + m) st =
  (let (st1, l1) := get_many get n st in let (st2, l2) := get_many get m st1 in (st2, l1 ++ l2)).
Proof.
  revert st. induction n as [|n IH]; intros st; cbn [Nat.add get_many].
  - destruct (get_many get m st); reflexivity.
  - destruct (get st) as [st1 x]. rewrite IH. destruct (get_many get n st1) as [st2 l1].
    destruct (get_many get m st2); reflexivity.
Qed.

(** Fewer words than elements. *)
Lemma get_many_short (HS : stops get) ts xs s n : Forall2 (reads get) ts xs -> Words s ts -> (length xs <= n)%nat ->
  exists st, get_many get n (s, true) = (st, map Some xs ++ repeat None (n - length xs)) /\ (snd st = false \/ all_space (fst st)).
Proof.
  intros F W L. assert (W' : Words s (ts ++ [])) by (rewrite app_nil_r; exact W).
  destruct (get_many_words ts xs s [] F W') as (r & E & WR). apply Words_nil_inv in WR.
  destruct (get_many_stops HS (n - length xs) r true (or_intror WR)) as (st & E2 & K).
  exists st. replace n with (length xs + (n - length xs))%nat at 1 by lia. rewrite get_many_app, E, E2. split; [reflexivity|].
  destruct K as [K|[_ ->]]; [left; exact K|right; exact WR].
Qed.

Lemma read_1d_ok ts xs s w ws rows0 : in_int (Z.of_nat (length xs)) -> Forall2 (reads get) ts xs ->
  Words s (w :: itoa (Z.of_nat (length xs)) :: ts ++ ws) ->
  Read1DArrayFromTxtFile get (Some s) rows0 = Ok (Z.of_nat (length xs), map Some xs).
Proof.
  intros HI F H. unfold Read1DArrayFromTxtFile. cbn [open_stream].
  destruct (get_rows_words s w _ _ rows0 HI H) as (r & E & W). rewrite E. cbn [obind].
  destruct (Z.ltb_spec (Z.of_nat (length xs)) 0); [lia|]. rewrite Nat2Z.id.
  destruct (get_many_words ts xs r ws F W) as (r2 & E2 & _). rewrite E2. reflexivity.
Qed.

Lemma read_1d_short (HS : stops get) ts xs s w k rows0 : in_int k -> Forall2 (reads get) ts xs -> Z.of_nat (length xs) <= k ->
  Words s (w :: itoa k :: ts) ->
  Read1DArrayFromTxtFile get (Some s) rows0 = Ok (k, map Some xs ++ repeat None (Z.to_nat k - length xs)).
Proof.
  intros HI F L H. unfold Read1DArrayFromTxtFile. cbn [open_stream].
  destruct (get_rows_words s w _ _ rows0 HI H) as (r & E & W). rewrite E. cbn [obind].
  destruct (Z.ltb_spec k 0); [lia|].
  destruct (get_many_short HS ts xs r (Z.to_nat k) F W ltac:(lia)) as (st & E2 & _). rewrite E2. reflexivity.
Qed.

Lemma read_1d_none (HS : stops get) file rows0 :
  match file with None => True | Some s => exists ws, Words s ws /\ (length ws <= 1)%nat end ->
  Read1DArrayFromTxtFile get file rows0 =
  match rows0 with Some k => if k <? 0 then Throw else Ok (k, repeat None (Z.to_nat k)) | None => UB end.
Proof.
  intros H. unfold Read1DArrayFromTxtFile. destruct (get_rows_none file rows0 H) as ((s & good) & G & E). rewrite E.
  cbn in G. subst. destruct rows0 as [k|]; [|reflexivity]. cbn [obind]. destruct (k <? 0); [reflexivity|].
  destruct (get_many_stops HS (Z.to_nat k) s false (or_introl eq_refl)) as (st & E2 & _). rewrite E2. reflexivity.
Qed.

Variable of_int : Z -> T.

Lemma read_negative s w k ws rows0 : in_int k -> k < 0 -> Words s (w :: itoa k :: ws) ->
  Read1DArrayFromTxtFile get (Some s) rows0 = Throw /\ Read2DArrayFromTxtFile get of_int (Some s) rows0 = Throw /\
  Read2DArrayFromString get of_int s rows0 = Throw.
Proof.
  intros HI L H. unfold Read1DArrayFromTxtFile, Read2DArrayFromTxtFile, Read2DArrayFromString, read_2d. cbn [open_stream].
  destruct (get_rows_words s w _ _ rows0 HI H) as (r & E & W). rewrite E. cbn [obind].
  destruct (Z.ltb_spec k 0); [|lia]. auto.
Qed.

(** *** Rows *)
Definition row_ok (ts : list bytes) (xs : list T) : Prop :=
  exists us, ts = itoa (Z.of_nat (length xs)) :: us /\ Forall2 (reads get) us xs /\ Z.of_nat (length xs) < INT_MAX.

Definition row_of (xs : list T) : list (option T) := Some (of_int (Z.of_nat (length xs))) :: map Some xs.

Lemma get_row_step m s ts xs ws n : row_ok ts xs -> Words s (ts ++ ws) ->
  exists rest, Words rest ws /\
    get_row get of_int (S m) (s, true) n =
    obind (get_row get of_int m (rest, true) (Some (Z.of_nat (length xs)))) (fun l => Ok (row_of xs :: l)).
Proof.
  intros (us & -> & F & L) H. cbn [app] in H.
  assert (HI : in_int (Z.of_nat (length xs))) by (unfold in_int, INT_MIN, INT_MAX in *; lia).
  destruct (reads_words get_int s _ _ _ (get_int_reads _ HI) H) as (r & E & W).
  destruct (get_many_words us xs r ws F W) as (r2 & E2 & W2). exists r2. split; [exact W2|].
  cbn [get_row]. rewrite E. destruct (Z.leb_spec INT_MAX (Z.of_nat (length xs))); [lia|].
  destruct (Z.ltb_spec (Z.of_nat (length xs) + 1) 0); [lia|]. destruct (Z.eqb_spec (Z.of_nat (length xs) + 1) 0); [lia|].
  rewrite Nat2Z.id, E2. reflexivity.
Qed.

Lemma get_row_words : forall tss xss m s ws n, Forall2 row_ok tss xss -> Words s (concat tss ++ ws) ->
  exists rest, Words rest ws /\
    get_row get of_int (length xss + m) (s, true) n =
    obind (get_row get of_int m (rest, true) (match rev xss with [] => n | x :: _ => Some (Z.of_nat (length x)) end))
      (fun l => Ok (map row_of xss ++ l)).
Proof.
  intros tss xss m s ws n F. revert s n. induction F as [|ts xs tss xss R F IH]; intros s n H.
  - exists s. split; [exact H|]. cbn. destruct (get_row get of_int m (s, true) n); reflexivity.
  - cbn [concat] in H. rewrite <- app_assoc in H.
    destruct (get_row_step (length xss + m) s ts xs _ n R H) as (r & W & E).
    destruct (IH r (Some (Z.of_nat (length xs))) W) as (r2 & W2 & E2). exists r2. split; [exact W2|].
    cbn [length Nat.add]. rewrite E, E2. cbn [rev map app].
    replace (match rev xss ++ [xs] with [] => n | x :: _ => Some (Z.of_nat (length x)) end)
      with (match rev xss with [] => Some (Z.of_nat (length xs)) | x :: _ => Some (Z.of_nat (length x)) end)
      by (destruct (rev xss); reflexivity).
    destruct (get_row get of_int m _ _); reflexivity.
Qed.

Lemma read_2d_ok tss xss s w ws rows0 : in_int (Z.of_nat (length xss)) -> Forall2 row_ok tss xss ->
  Words s (w :: itoa (Z.of_nat (length xss)) :: concat tss ++ ws) ->
  read_2d get of_int (s, true) rows0 = Ok (Z.of_nat (length xss), map row_of xss).
Proof.
  intros HI F H. unfold read_2d. destruct (get_rows_words s w _ _ rows0 HI H) as (r & E & W). rewrite E. cbn [obind].
  destruct (Z.ltb_spec (Z.of_nat (length xss)) 0); [lia|]. rewrite Nat2Z.id.
  destruct (get_row_words tss xss 0 r ws None F W) as (r2 & _ & E2). rewrite Nat.add_0_r in E2. rewrite E2. cbn.
  rewrite app_nil_r. reflexivity.
Qed.

(** Rows that are missing take the length of the last one. *)
Lemma get_row_stops (HS : stops get) m n : 0 <= n < INT_MAX -> forall s good, good = false \/ all_space s ->
  get_row get of_int m (s, good) (Some n) = Ok (repeat (Some (of_int n) :: repeat None (Z.to_nat n)) m).
Proof.
  intros L. induction m as [|m IH]; intros s good H; [reflexivity|].
  cbn [get_row repeat]. destruct (get_int_stops s good H) as [H1 H2]. destruct (get_int (s, good)) as [[s1 g1] x].
  cbn in H1, H2. subst. destruct (Z.leb_spec INT_MAX n); [lia|].
  destruct (Z.ltb_spec (n + 1) 0); [lia|]. destruct (Z.eqb_spec (n + 1) 0); [lia|].
  destruct (get_many_stops HS (Z.to_nat n) s1 false (or_introl eq_refl)) as ((s2 & g2) & E & K). rewrite E.
  rewrite (IH s2 g2); [reflexivity|]. destruct K as [K|[_ K]]; [left; exact K|left; congruence].
Qed.

Lemma read_2d_missing (HS : stops get) tss xss x s w k rows0 : in_int k -> Forall2 row_ok tss (xss ++ [x]) ->
  Z.of_nat (length (xss ++ [x])) <= k ->
  Words s (w :: itoa k :: concat tss) ->
  read_2d get of_int (s, true) rows0 =
  Ok (k, map row_of (xss ++ [x]) ++
         repeat (Some (of_int (Z.of_nat (length x))) :: repeat None (length x)) (Z.to_nat k - length (xss ++ [x]))).
Proof.
  intros HI F L H. unfold read_2d. destruct (get_rows_words s w _ _ rows0 HI H) as (r & E & W). rewrite E. cbn [obind].
  destruct (Z.ltb_spec k 0); [lia|].
  assert (W' : Words r (concat tss ++ [])) by (rewrite app_nil_r; exact W).
  destruct (get_row_words tss (xss ++ [x]) (Z.to_nat k - length (xss ++ [x])) r [] None F W') as (r2 & W2 & E2).
  replace (length (xss ++ [x]) + (Z.to_nat k - length (xss ++ [x])))%nat with (Z.to_nat k) in E2 by lia. rewrite E2.
  rewrite rev_app_distr. cbn [rev app].
  assert (Lx : Z.of_nat (length x) < INT_MAX).
  { clear - F. revert tss F. induction xss as [|y xss IH]; intros tss F; cbn [app] in F.
    - inversion F; subst. match goal with H : row_ok _ x |- _ => destruct H as (us & _ & _ & B) end. exact B.
    - inversion F; subst. eapply IH; eassumption. }
  rewrite (get_row_stops HS _ (Z.of_nat (length x)) ltac:(lia) r2 true (or_intror (Words_nil_inv _ W2))).
  cbn [obind]. rewrite Nat2Z.id. reflexivity.
Qed.

Lemma read_2d_bad s w k n ws rows0 : in_int k -> in_int n -> 0 < k -> Words s (w :: itoa k :: itoa n :: ws) ->
  (n = -1 \/ n = INT_MAX -> read_2d get of_int (s, true) rows0 = UB) /\
  (n < -1 -> read_2d get of_int (s, true) rows0 = Throw).
Proof.
  intros HI HN L H. unfold read_2d. destruct (get_rows_words s w _ _ rows0 HI H) as (r & E & W). rewrite E. cbn [obind].
  destruct (Z.ltb_spec k 0); [lia|]. destruct (Z.to_nat k) as [|m] eqn:EK; [lia|].
  destruct (reads_words get_int r _ _ _ (get_int_reads n HN) W) as (r1 & E1 & W1). cbn [get_row]. rewrite E1. split.
  - intros [->| ->]; reflexivity.
  - intros B. destruct (Z.leb_spec INT_MAX n); [unfold INT_MAX in *; lia|].
    destruct (Z.ltb_spec (n + 1) 0); [|lia]. reflexivity.
Qed.

Lemma read_2d_no_row s w k rows0 : in_int k -> 0 < k -> Words s [w; itoa k] -> read_2d get of_int (s, true) rows0 = UB.
Proof.
  intros HI L H. unfold read_2d. destruct (get_rows_words s w _ _ rows0 HI H) as (r & E & W). rewrite E. cbn [obind].
  destruct (Z.ltb_spec k 0); [lia|]. destruct (Z.to_nat k) as [|m] eqn:EK; [lia|].
  cbn [get_row]. destruct (get_int_stops r true (or_intror (Words_nil_inv _ W))) as [H1 H2].
  destruct (get_int (r, true)) as [st x]. cbn in H2. subst. reflexivity.
Qed.

Lemma read_2d_none file rows0 : match file with None => True | Some s => exists ws, Words s ws /\ (length ws <= 1)%nat end ->
  Read2DArrayFromTxtFile get of_int file rows0 =
  match rows0 with Some k => if k <? 0 then Throw else if k =? 0 then Ok (0, []) else UB | None => UB end.
Proof.
  intros H. unfold Read2DArrayFromTxtFile, read_2d. destruct (get_rows_none file rows0 H) as ((s & good) & G & E). rewrite E.
  cbn in G. subst. destruct rows0 as [k|]; [|reflexivity]. cbn [obind]. destruct (Z.ltb_spec k 0); [reflexivity|].
  destruct (Z.eqb_spec k 0) as [->|N]; [reflexivity|]. destruct (Z.to_nat k) as [|m] eqn:EK; [lia|].
  cbn [get_row]. destruct (get_int_stops s false (or_introl eq_refl)) as [H1 H2].
  destruct (get_int (s, false)) as [st x]. cbn in H2. subst. reflexivity.
Qed.

(** *** What the writer wrote *)
Variable v : Z -> T.
Hypothesis HR : forall z, Z.abs z < 1000000 -> reads get (itoa z) (v z).
Hypothesis HS : stops get.

Lemma at_most_many m : forall n st, at_most n st ->
  let '(st', l) := get_many get m st in length l = m /\ (set_count l <= n)%nat /\ at_most (n - set_count l) st'.
Proof.
  induction m as [|m IH]; intros n st H; cbn [get_many].
  - cbn. split; [reflexivity|]. split; [lia|]. apply (at_most_le n); [lia|exact H].
  - pose proof (at_most_get get v n st HR HS H) as K. destruct (get st) as [st1 x]. cbn [fst snd] in K.
    destruct x as [x|].
    + destruct K as [K1 K2]. specialize (IH (n - 1)%nat st1 K2). destruct (get_many get m st1) as [st2 l].
      cbn [length set_count]. destruct IH as (A & B & C). split; [lia|]. split; [lia|].
      apply (at_most_le (n - 1 - set_count l)); [lia|exact C].
    + specialize (IH n st1 K). destruct (get_many get m st1) as [st2 l].
      cbn [length set_count]. destruct IH as (A & B & C). split; [lia|]. split; [lia|]. exact C.
Qed.

Lemma at_most_int n st : at_most n st ->
  match snd (get_int st) with None => at_most n (fst (get_int st)) | Some _ => (1 <= n)%nat /\ at_most (n - 1) (fst (get_int st)) end.
Proof.
  apply (at_most_get get_int (fun z => z)); [|exact get_int_stops]. intros z Hz. apply get_int_reads, small_int, Hz.
Qed.

Lemma at_most_rows k : forall n st p, at_most n st -> forall l, get_row get of_int k st p = Ok l ->
  (length l = k /\ set_count (concat (map (@tl _) l)) <= n)%nat.
Proof.
  induction k as [|k IH]; intros n st p H l E; cbn [get_row] in E.
  - injection E as <-. cbn. lia.
  - pose proof (at_most_int n st H) as K. destruct (get_int st) as [st1 r]. cbn [fst snd] in K.
    assert (K1 : at_most n st1) by (destruct r; [apply (at_most_le (n - 1)); [lia|apply K]|exact K]).
    clear K. destruct (match r with Some z => Some z | None => p end) as [z|]; [|discriminate].
    destruct (INT_MAX <=? z); [discriminate|]. destruct (z + 1 <? 0); [discriminate|]. destruct (z + 1 =? 0); [discriminate|].
    pose proof (at_most_many (Z.to_nat z) n st1 K1) as M. destruct (get_many get (Z.to_nat z) st1) as [st2 l1].
    destruct M as (A & B & C). destruct (get_row get of_int k st2 (Some z)) as [rest| |] eqn:E2; cbn [obind] in E; try discriminate.
    injection E as <-. destruct (IH _ st2 (Some z) C rest E2) as [D1 D2].
    cbn [length map concat tl]. rewrite set_count_app. lia.
Qed.

(** When every row has a value that was read, the lengths were read too. *)
Lemma at_most_full k : forall n st p, at_most n st -> forall l, get_row get of_int k st p = Ok l ->
  (forall row, In row l -> (2 <= length row /\ set_count row = length row)%nat) ->
  (length (concat l) <= n)%nat.
Proof.
  induction k as [|k IH]; intros n st p H l E FULL; cbn [get_row] in E.
  - injection E as <-. cbn. lia.
  - pose proof (at_most_int n st H) as K.
    assert (SI : snd (get_int st) = None -> snd (fst (get_int st)) = false).
    { destruct H as [H|(zs & W & F & L)]; intros S.
      - destruct st as [s g]. apply get_int_stops. left. exact H.
      - destruct st as [s [|]]; [|apply get_int_stops; left; reflexivity]. cbn [fst] in W. destruct zs as [|z zs].
        + apply get_int_stops. right. apply Words_nil_inv, W.
        + inversion F; subst. cbn [map] in W.
          destruct (reads_words get_int s _ _ _ (get_int_reads z (small_int z ltac:(assumption))) W) as (q & EQ & _).
          rewrite EQ in S. discriminate. }
    destruct (get_int st) as [st1 r]. cbn [fst snd] in K, SI.
    assert (K1 : at_most (match r with Some _ => n - 1 | None => 0 end) st1 /\ (r <> None -> 1 <= n)%nat).
    { destruct r; [split; [apply K|intros _; apply K]|]. split; [left; apply SI; reflexivity|congruence]. }
    destruct K1 as [K1 K2].
    destruct (match r with Some z => Some z | None => p end) as [z|]; [|discriminate].
    destruct (INT_MAX <=? z); [discriminate|]. destruct (z + 1 <? 0); [discriminate|]. destruct (z + 1 =? 0); [discriminate|].
    pose proof (at_most_many (Z.to_nat z) _ st1 K1) as M. destruct (get_many get (Z.to_nat z) st1) as [st2 l1].
    destruct M as (A & B & C). destruct (get_row get of_int k st2 (Some z)) as [rest| |] eqn:E2; cbn [obind] in E; try discriminate.
    injection E as <-. destruct (FULL _ (or_introl eq_refl)) as [D1 D2]. cbn [length set_count] in D1, D2.
    specialize (IH _ st2 (Some z) C rest E2 (fun row I => FULL row (or_intror I))).
    cbn [concat]. rewrite app_length. cbn [length]. destruct r as [z1|]; [|lia]. specialize (K2 ltac:(discriminate)). lia.
Qed.
End Reading.

Lemma Words_blank c s ws : isspace c = true -> Words s ws -> Words (c :: s) ws.
Proof.
  intros H W. inversion W; subst.
  - constructor. constructor; assumption.
  - rewrite app_comm_cons. constructor; auto. constructor; assumption.
Qed.

Lemma Words_token z c s ws : isspace c = true -> Words s ws -> Words ((itoa z ++ [c]) ++ s) (itoa z :: ws).
Proof.
  intros H W. rewrite <- app_assoc. change (itoa z ++ [c] ++ s) with ([] ++ itoa z ++ (c :: s)).
  constructor; [constructor|apply itoa_nonempty|apply itoa_no_space|right; exists c, s; auto|apply Words_blank; assumption].
Qed.

Lemma written_line zs c s ws : isspace c = true -> Forall (fun z => Z.abs z < 1000000) zs -> Words s ws ->
  Words (flat_map (fun x => g6 x ++ [c]) (map FloatModel.of_int zs) ++ s) (map itoa zs ++ ws).
Proof.
  intros H F W. induction F as [|z zs Hz F IH]; [exact W|]. cbn [map flat_map app].
  rewrite <- app_assoc, (g6_int z Hz). apply Words_token; assumption.
Qed.

Lemma written_1d zs : Forall (fun z => Z.abs z < 1000000) zs ->
  Words (Output1DArrayToTxtFile (map FloatModel.of_int zs)) (map itoa zs).
Proof.
  intros F. unfold Output1DArrayToTxtFile. rewrite <- (app_nil_r (flat_map _ _)), <- (app_nil_r (map itoa zs)).
  apply written_line; [reflexivity|exact F|constructor; constructor].
Qed.

Lemma written_2d zss : Forall (Forall (fun z => Z.abs z < 1000000)) zss ->
  Words (Output2DArrayToTxtFile (map (map FloatModel.of_int) zss)) (map itoa (concat zss)).
Proof.
  intros F. unfold Output2DArrayToTxtFile. induction F as [|zs zss Hz F IH]; [constructor; constructor|].
  cbn [map flat_map concat]. rewrite map_app, <- app_assoc. apply written_line; [reflexivity|exact Hz|].
  cbn [app]. apply Words_blank; [reflexivity|exact IH].
Qed.
