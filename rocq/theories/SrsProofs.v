From Coq Require Import ZArith Ascii String List Bool Lia.
From Verif Require Import Base RasterModel ListLib StrModel StrProofs MapModel MapProofs ArrayModel ArrayProofs SrsModel.
Import ListNotations.
Open Scope Z_scope.

Lemma load_text (h : @heap ascii) s : forall a b, s = a ++ b -> load_val (fst (c_str h s)) (snd (c_str h s)) (Z.of_nat (List.length a)) = Ok (match b with [] => zero | c :: _ => c end).
Proof.
  intros a b ->. unfold c_str, load_val, load, block. cbn [fst snd]. rewrite nth_error_app2, Nat.sub_diag by lia. cbn [nth_error obind].
  rewrite (aget_ok _ _ (CVal (match b with [] => zero | c :: _ => c end))); [reflexivity|lia|]. rewrite Z.add_0_l, Nat2Z.id, map_app, <- app_assoc, nth_error_app2 by (rewrite map_length; lia).
  rewrite map_length, Nat.sub_diag. destruct b; reflexivity.
Qed.
Lemma read_kept (h : @heap ascii) s : forall b a fuel, s = a ++ b -> (List.length b < fuel)%nat -> Forall (fun c => c <> zero) b ->
  read_text fuel (fst (c_str h s)) (snd (c_str h s)) (Z.of_nat (List.length a)) = Ok b.
Proof.
  induction b as [|c b IH]; intros a fuel E L N; (destruct fuel as [|fuel]; [cbn in L; lia|]); cbn [read_text]; rewrite (load_text h s a _ E); cbn [obind].
  - reflexivity.
  - pose proof (Forall_inv N) as NC. pose proof (Forall_inv_tail N) as NB. destruct (Ascii.eqb_spec c zero) as [X|X]; [contradiction|].
    replace (Z.of_nat (List.length a) + 1) with (Z.of_nat (List.length (a ++ [c]))) by (rewrite app_length; cbn; lia).
    rewrite IH; [reflexivity|rewrite E, <- app_assoc; reflexivity|cbn in L; lia|exact NB].
Qed.
Lemma srs_gone (h : @heap ascii) o : exists h' p, GetSrs h o = Ok (h', p) /\ (forall i, load h' p i = UB) /\
  (forall b, (b < List.length h)%nat -> nth_error h' b = nth_error h b).
Proof.
  unfold GetSrs, c_str, free, block. cbn [fst snd]. rewrite nth_error_app2, Nat.sub_diag by lia. cbn [nth_error obind Z.eqb]. rewrite upd_snoc. eexists. eexists. split; [reflexivity|]. split.
  - intros i. unfold load, block. rewrite nth_error_app2, Nat.sub_diag by lia. reflexivity.
  - intros b B. apply nth_error_app1, B.
Qed.
