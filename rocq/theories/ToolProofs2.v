(** Proofs about the raster tool: what the options set. *)
From Coq Require Import ZArith Ascii String List Bool Lia.
From Verif Require Import Base StrModel StrSpec StrProofs MapModel MapProofs FsModel BasicModel SubsetModel AppModel AppSpec AppProofs ToolModel ToolSpec ToolProofs.
Import ListNotations.
Open Scope Z_scope.
Open Scope outcome_scope.

Lemma key_is1 k a : key_is k [a] = true -> k = str a.
Proof. unfold key_is. cbn [existsb]. rewrite orb_false_r. apply beqb_true. Qed.
Lemma key_is2 k a b : key_is k [a; b] = true -> k = str a \/ k = str b.
Proof. unfold key_is. cbn [existsb]. rewrite orb_false_r, orb_true_iff, !beqb_true. auto. Qed.
Lemma key_is1_eq k a : key_is k [a] = beqb k (str a).
Proof. unfold key_is. cbn [existsb]. apply orb_false_r. Qed.
Lemma key_is2_eq k a b : key_is k [a; b] = is2 (str a) (str b) k.
Proof. unfold key_is, is2. cbn [existsb]. rewrite orb_false_r. reflexivity. Qed.

Lemma at0_ok {A} (l : list A) a : at_ l 0 = Ok a -> exists t, l = a :: t.
Proof. unfold at_. destruct l; cbn; [discriminate|]. intros E. injection E as ->. eauto. Qed.

Section Opt.
Context {V : Type}.
Variable strtod : bytes -> V * nat.
Variable nd : V.
Variable ex : bytes -> bool.
Variable conn : list bytes -> option bool.

Notation step := (option_step strtod nd ex conn).
Notation opts := (options strtod nd ex conn).

(** The paths and the format of an option, where it is accepted. *)
Definition parsed (tag : string) (vals : list bytes) : option (datafmt * list bytes) :=
  match parse_fmt_paths ex (str tag) vals with Ok (Some p) => Some p | _ => None end.

Definition ins_of (vals : list bytes) : list (datafmt * list bytes) :=
  match parsed "IN" vals with Some (f, p :: ps) => [(f, p :: ps)] | _ => [] end.
Definition outs_of (vals : list bytes) : list (datafmt * bytes) :=
  match parsed "OUT" vals with Some (f, p :: _) => [(f, p)] | _ => [] end.
Definition fmt_of (tag : string) (old : datafmt) (vals : list bytes) : datafmt :=
  match parsed tag vals with Some (f, _) => f | None => old end.

Ltac solve_key :=
  repeat match goal with
  | |- context [key_is (str ?a) ?l] => let r := eval vm_compute in (key_is (str a) l) in change (key_is (str a) l) with r; cbv iota
  | H : context [key_is (str ?a) ?l] |- _ => let r := eval vm_compute in (key_is (str a) l) in change (key_is (str a) l) with r in H; cbv iota in H
  end.

(** What one option does to each variable. *)
Lemma step_vars v k vals v' : step v (k, vals) = Ok (Go v') ->
  v_mode v' = (if key_is k ["MODE"%string] then StringToIOMode (hd [] vals) else v_mode v) /\
  v_threads v' = (if key_is k ["THREAD"%string] then (let (n, ok) := IsInt (hd [] vals) in if ok then n else 1) else v_threads v) /\
  v_inc v' = (if key_is k ["INCLUDE_NODATA"%string] then (let (n, ok) := IsInt (hd [] vals) in if ok then 0 <? n else true) else v_inc v) /\
  v_mongo v' = (if key_is k ["MONGO"%string; "MONGODB"%string] then or_else (conn (firstn 4 vals)) (v_mongo v) else v_mongo v) /\
  (v_mask_fmt v', v_mask v') = (if key_is k ["MASK"%string] then match parsed "MASK" vals with Some (f, p :: _) => (f, p) | _ => (v_mask_fmt v, v_mask v) end else (v_mask_fmt v, v_mask v)) /\
  v_infmt v' = (if key_is k ["IN"%string; "INPUT"%string] then fmt_of "IN" (v_infmt v) vals else v_infmt v) /\
  v_in_fmts v' = v_in_fmts v ++ (if key_is k ["IN"%string; "INPUT"%string] then map fst (ins_of vals) else []) /\
  v_ins v' = v_ins v ++ (if key_is k ["IN"%string; "INPUT"%string] then map snd (ins_of vals) else []) /\
  v_outfmt v' = (if key_is k ["OUT"%string; "OUTPUT"%string] then fmt_of "OUT" (v_outfmt v) vals else v_outfmt v) /\
  v_out_fmts v' = v_out_fmts v ++ (if key_is k ["OUT"%string; "OUTPUT"%string] then map fst (outs_of vals) else []) /\
  v_outs v' = v_outs v ++ (if key_is k ["OUT"%string; "OUTPUT"%string] then map snd (outs_of vals) else []) /\
  v_default v' = (if key_is k ["DEFAULT"%string; "DEFAULTVALUE"%string] then number_or_nodata strtod nd (hd [] vals) else v_default v) /\
  (v_upd v', v_nodata v') = (if key_is k ["NODATA"%string; "NODATAVALUE"%string] then (true, number_or_nodata strtod nd (hd [] vals)) else (v_upd v, v_nodata v)) /\
  (v_defaults v' = v_defaults v /\ v_upds v' = v_upds v /\ v_nodatas v' = v_nodatas v /\ v_types v' = v_types v /\ v_reclss v' = v_reclss v) /\
  v_type v' = (if key_is k ["OUTDATATYPE"%string] then StringToRasterDataType (hd [] vals) else v_type v) /\
  v_recls v' = (if key_is k ["RECLASS"%string] then snd (parse_key_values strtod (hd [] vals)) else v_recls v) /\
  v_tables v' = v_tables v ++ (if key_is k ["RECLASS"%string] then [fst (parse_key_values strtod (hd [] vals))] else []).
Proof.
  intros E. unfold option_step in E. cbn [fst snd] in E.
  destruct (key_is k ["MODE"%string]) eqn:K1.
  { apply key_is1 in K1. subst k. destruct (at_ vals 0) as [s| |] eqn:A; try discriminate. apply at0_ok in A. destruct A as [t ->]. cbn [obind hd] in *.
    destruct (StringToIOMode s) eqn:M; try discriminate; injection E as <-; solve_key; cbn; rewrite !app_nil_r; auto 20. }
  destruct (key_is k ["IN"%string; "INPUT"%string]) eqn:K2.
  { unfold ins_of, fmt_of, parsed. destruct (parse_fmt_paths ex (str "IN") vals) as [[[f [|p ps]]|]| |] eqn:P; try discriminate; cbn [obind] in E; injection E as <-;
    apply key_is2 in K2; destruct K2; subst k; solve_key; cbn; rewrite ?app_nil_r; auto 20. }
  destruct (key_is k ["MASK"%string]) eqn:K3.
  { apply key_is1 in K3. subst k. unfold parsed. destruct (parse_fmt_paths ex (str "MASK") vals) as [[[f [|p ps]]|]| |] eqn:P; try discriminate; cbn [obind] in E; injection E as <-;
    solve_key; cbn; rewrite !app_nil_r; auto 20. }
  destruct (key_is k ["OUT"%string; "OUTPUT"%string]) eqn:K4.
  { unfold outs_of, fmt_of, parsed. destruct (parse_fmt_paths ex (str "OUT") vals) as [[[f [|p ps]]|]| |] eqn:P; try discriminate; cbn [obind] in E; injection E as <-;
    apply key_is2 in K4; destruct K4; subst k; solve_key; cbn; rewrite ?app_nil_r; auto 20. }
  destruct (key_is k ["OUTDATATYPE"%string]) eqn:K5.
  { apply key_is1 in K5. subst k. destruct (at_ vals 0) as [s| |] eqn:A; try discriminate. apply at0_ok in A. destruct A as [t ->]. cbn [obind hd] in *.
    injection E as <-. solve_key. cbn. rewrite !app_nil_r. auto 20. }
  destruct (key_is k ["DEFAULT"%string; "DEFAULTVALUE"%string]) eqn:K6.
  { destruct (at_ vals 0) as [s| |] eqn:A; try discriminate. apply at0_ok in A. destruct A as [t ->]. cbn [obind hd] in *.
    injection E as <-. apply key_is2 in K6. destruct K6; subst k; solve_key; cbn; rewrite !app_nil_r; auto 20. }
  destruct (key_is k ["NODATA"%string; "NODATAVALUE"%string]) eqn:K7.
  { destruct (at_ vals 0) as [s| |] eqn:A; try discriminate. apply at0_ok in A. destruct A as [t ->]. cbn [obind hd] in *.
    injection E as <-. apply key_is2 in K7. destruct K7; subst k; solve_key; cbn; rewrite !app_nil_r; auto 20. }
  destruct (key_is k ["RECLASS"%string]) eqn:K8.
  { apply key_is1 in K8. subst k. destruct (at_ vals 0) as [s| |] eqn:A; try discriminate. apply at0_ok in A. destruct A as [t ->]. cbn [obind hd] in *.
    destruct (parse_key_values strtod s) as [m ok]. injection E as <-. solve_key. cbn. rewrite !app_nil_r. auto 20. }
  destruct (key_is k ["MONGO"%string; "MONGODB"%string]) eqn:K9.
  { destruct (length vals <? 4)%nat; [discriminate|]. revert E. generalize (@firstn bytes 4 vals). intros w E.
    apply key_is2 in K9. destruct (conn w); injection E as <-; destruct K9; subst k; solve_key; cbn; rewrite !app_nil_r; repeat split. }
  destruct (key_is k ["THREAD"%string]) eqn:K10.
  { apply key_is1 in K10. subst k. destruct (at_ vals 0) as [s| |] eqn:A; try discriminate. apply at0_ok in A. destruct A as [t ->]. cbn [obind hd] in *.
    destruct (IsInt s) as [n ok]. injection E as <-. solve_key. cbn. rewrite !app_nil_r. auto 20. }
  destruct (key_is k ["INCLUDE_NODATA"%string]) eqn:K11.
  { apply key_is1 in K11. subst k. destruct (at_ vals 0) as [s| |] eqn:A; try discriminate. apply at0_ok in A. destruct A as [t ->]. cbn [obind hd] in *.
    destruct (IsInt s) as [n ok]. injection E as <-. solve_key. cbn. rewrite !app_nil_r. auto 20. }
  injection E as <-. rewrite !app_nil_r. auto 20.
Qed.

Lemma fold_filter {A B C} (P : A -> bool) (f : C -> B -> C) (l : list (A * B)) : forall x,
  fold_left (fun x kv => if P (fst kv) then f x (snd kv) else x) l x = fold_left f (map snd (filter (fun kv => P (fst kv)) l)) x.
Proof. induction l as [|[a b] l IH]; intros x; cbn; [reflexivity|]. destruct (P a); cbn; apply IH. Qed.
Lemma flat_filter {A B C} (P : A -> bool) (f : B -> list C) (l : list (A * B)) :
  flat_map (fun kv => if P (fst kv) then f (snd kv) else []) l = flat_map f (map snd (filter (fun kv => P (fst kv)) l)).
Proof. induction l as [|[a b] l IH]; cbn; [reflexivity|]. destruct (P a); cbn; rewrite IH; reflexivity. Qed.

(** What all options do. *)
Lemma opts_vars l : forall v v', opts v l = Ok (Go v') ->
  v_mode v' = fold_left (fun x kv => if key_is (fst kv) ["MODE"%string] then StringToIOMode (hd [] (snd kv)) else x) l (v_mode v) /\
  v_mongo v' = fold_left (fun x kv => if key_is (fst kv) ["MONGO"%string; "MONGODB"%string] then or_else (conn (firstn 4 (snd kv))) x else x) l (v_mongo v) /\
  (v_mask_fmt v', v_mask v') = fold_left (fun x kv => if key_is (fst kv) ["MASK"%string] then match parsed "MASK" (snd kv) with Some (f, p :: _) => (f, p) | _ => x end else x) l (v_mask_fmt v, v_mask v) /\
  v_infmt v' = fold_left (fun x kv => if key_is (fst kv) ["IN"%string; "INPUT"%string] then fmt_of "IN" x (snd kv) else x) l (v_infmt v) /\
  v_in_fmts v' = v_in_fmts v ++ flat_map (fun kv => if key_is (fst kv) ["IN"%string; "INPUT"%string] then map fst (ins_of (snd kv)) else []) l /\
  v_ins v' = v_ins v ++ flat_map (fun kv => if key_is (fst kv) ["IN"%string; "INPUT"%string] then map snd (ins_of (snd kv)) else []) l /\
  v_outfmt v' = fold_left (fun x kv => if key_is (fst kv) ["OUT"%string; "OUTPUT"%string] then fmt_of "OUT" x (snd kv) else x) l (v_outfmt v) /\
  v_out_fmts v' = v_out_fmts v ++ flat_map (fun kv => if key_is (fst kv) ["OUT"%string; "OUTPUT"%string] then map fst (outs_of (snd kv)) else []) l /\
  v_outs v' = v_outs v ++ flat_map (fun kv => if key_is (fst kv) ["OUT"%string; "OUTPUT"%string] then map snd (outs_of (snd kv)) else []) l /\
  v_default v' = fold_left (fun x kv => if key_is (fst kv) ["DEFAULT"%string; "DEFAULTVALUE"%string] then number_or_nodata strtod nd (hd [] (snd kv)) else x) l (v_default v) /\
  (v_upd v', v_nodata v') = fold_left (fun x kv => if key_is (fst kv) ["NODATA"%string; "NODATAVALUE"%string] then (true, number_or_nodata strtod nd (hd [] (snd kv))) else x) l (v_upd v, v_nodata v) /\
  (v_defaults v' = v_defaults v /\ v_upds v' = v_upds v /\ v_nodatas v' = v_nodatas v /\ v_types v' = v_types v /\ v_reclss v' = v_reclss v) /\
  v_type v' = fold_left (fun x kv => if key_is (fst kv) ["OUTDATATYPE"%string] then StringToRasterDataType (hd [] (snd kv)) else x) l (v_type v) /\
  v_recls v' = fold_left (fun x kv => if key_is (fst kv) ["RECLASS"%string] then snd (parse_key_values strtod (hd [] (snd kv))) else x) l (v_recls v) /\
  v_tables v' = v_tables v ++ flat_map (fun kv => if key_is (fst kv) ["RECLASS"%string] then [fst (parse_key_values strtod (hd [] (snd kv)))] else []) l.
Proof.
  induction l as [|[k vals] l IH]; intros v v' E.
  { cbn in E. injection E as <-. cbn. rewrite !app_nil_r. auto 20. }
  cbn [options] in E. destruct (step v (k, vals)) as [[c|v1]| |] eqn:S; try discriminate. cbn [obind] in E.
  apply step_vars in S. specialize (IH _ _ E). cbn [fold_left flat_map fst snd].
  destruct S as (S1 & S2 & S3 & S4 & S5 & S6 & S7 & S8 & S9 & S10 & S11 & S12 & S13 & (S14 & S15 & S16 & S17 & S18) & S19 & S20 & S21).
  rewrite S1, S4, S5, S6, S7, S8, S9, S10, S11, S12, S13, S14, S15, S16, S17, S18, S19, S20, S21 in IH.
  rewrite <- !app_assoc in IH. exact IH.
Qed.
End Opt.
