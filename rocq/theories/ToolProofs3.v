(** Proofs about the raster tool: the variables after the options, the data items. *)
From Coq Require Import ZArith Ascii String List Bool Lia.
From Verif Require Import Base StrModel StrSpec StrProofs MapModel MapProofs FsModel BasicModel SubsetModel AppModel AppSpec AppProofs ToolModel ToolSpec ToolProofs ToolProofs2.
Import ListNotations.
Open Scope Z_scope.
Open Scope outcome_scope.

Lemma fold_last {A B} (f : B -> A) (l : list B) : forall x, fold_left (fun _ b => f b) l x = match rev l with [] => x | b :: _ => f b end.
Proof. intros x. rewrite <- (rev_involutive l) at 1. destruct (rev l) as [|b t]; [reflexivity|]. cbn [rev]. rewrite fold_left_app. reflexivity. Qed.

Lemma filter_eq {A} (P Q : A -> bool) l : (forall a, P a = Q a) -> filter P l = filter Q l.
Proof. intros H. induction l; cbn; [reflexivity|]. rewrite H, IHl. reflexivity. Qed.

Section Vars.
Context {V : Type}.
Variable strtod : bytes -> V * nat.
Variable nd : V.
Variable ex : bytes -> bool.
Variable conn : list bytes -> option bool.
Variable keys : smap (list bytes).
Hypothesis HN : NoDup (map fst keys).

Lemma one a : map snd (filter (fun kv => key_is (fst kv) [a]) (by_key keys)) = opt_list (lookup keys (str a)).
Proof. rewrite <- (filter_one keys (str a) HN). f_equal. apply filter_eq. intros kv. apply key_is1_eq. Qed.
Lemma two a b : key_le (str a) (str b) = true -> str a <> str b ->
  map snd (filter (fun kv => key_is (fst kv) [a; b]) (by_key keys)) = opt_list (lookup keys (str a)) ++ opt_list (lookup keys (str b)).
Proof. intros L N. rewrite <- (filter_pair keys _ _ L N HN). f_equal. apply filter_eq. intros kv. apply key_is2_eq. Qed.

Lemma fold_one {C} a (f : C -> list bytes -> C) x :
  fold_left (fun x kv => if key_is (fst kv) [a] then f x (snd kv) else x) (by_key keys) x =
  match lookup keys (str a) with Some l => f x l | None => x end.
Proof. rewrite (fold_filter (fun k => key_is k [a]) f), one. destruct (lookup keys (str a)); reflexivity. Qed.
Lemma fold_two {C} a b (f : C -> list bytes -> C) x : key_le (str a) (str b) = true -> str a <> str b ->
  fold_left (fun x kv => if key_is (fst kv) [a; b] then f x (snd kv) else x) (by_key keys) x =
  fold_left f (opt_list (lookup keys (str a)) ++ opt_list (lookup keys (str b))) x.
Proof. intros L N. rewrite (fold_filter (fun k => key_is k [a; b]) f), two by assumption. reflexivity. Qed.
Lemma flat_two {C} a b (f : list bytes -> list C) : key_le (str a) (str b) = true -> str a <> str b ->
  flat_map (fun kv => if key_is (fst kv) [a; b] then f (snd kv) else []) (by_key keys) =
  flat_map f (opt_list (lookup keys (str a)) ++ opt_list (lookup keys (str b))).
Proof. intros L N. rewrite (flat_filter (fun k => key_is k [a; b]) f), two by assumption. reflexivity. Qed.
Lemma flat_one {C} a (f : list bytes -> list C) :
  flat_map (fun kv => if key_is (fst kv) [a] then f (snd kv) else []) (by_key keys) = flat_map f (opt_list (lookup keys (str a))).
Proof. rewrite (flat_filter (fun k => key_is k [a]) f), one. reflexivity. Qed.

Notation both := (both keys).

Lemma vars_of_keys v : options strtod nd ex conn (vars0 nd) (by_key keys) = Ok (Go v) ->
  v_mode v = match lookup keys (str "MODE") with Some l => StringToIOMode (hd [] l) | None => MASK end /\
  v_mongo v = fold_left (fun x l => or_else (conn (firstn 4 l)) x) (both "MONGO" "MONGODB") false /\
  (v_mask_fmt v, v_mask v) = match lookup keys (str "MASK") with
                             | Some l => match parsed ex "MASK" l with Some (f, p :: _) => (f, p) | _ => (UNKNOWNFMT, []) end
                             | None => (UNKNOWNFMT, []) end /\
  v_infmt v = fold_left (fmt_of ex "IN") (both "IN" "INPUT") UNKNOWNFMT /\
  v_in_fmts v = map fst (flat_map (ins_of ex) (both "IN" "INPUT")) /\
  v_ins v = map snd (flat_map (ins_of ex) (both "IN" "INPUT")) /\
  v_outfmt v = fold_left (fmt_of ex "OUT") (both "OUT" "OUTPUT") UNKNOWNFMT /\
  v_out_fmts v = map fst (flat_map (outs_of ex) (both "OUT" "OUTPUT")) /\
  v_outs v = map snd (flat_map (outs_of ex) (both "OUT" "OUTPUT")) /\
  v_default v = match given2 keys "DEFAULT" "DEFAULTVALUE" with Some l => number_or_nodata strtod nd (hd [] l) | None => nd end /\
  v_upd v = is_some (given2 keys "NODATA" "NODATAVALUE") /\
  v_nodata v = match given2 keys "NODATA" "NODATAVALUE" with Some l => number_or_nodata strtod nd (hd [] l) | None => nd end /\
  (v_defaults v = [] /\ v_upds v = [] /\ v_nodatas v = [] /\ v_types v = [] /\ v_reclss v = []) /\
  v_type v = match lookup keys (str "OUTDATATYPE") with Some l => StringToRasterDataType (hd [] l) | None => RDT_Unknown end /\
  v_recls v = match lookup keys (str "RECLASS") with Some l => snd (parse_key_values strtod (hd [] l)) | None => false end /\
  v_tables v = match lookup keys (str "RECLASS") with Some l => [fst (parse_key_values strtod (hd [] l))] | None => [] end.
Proof.
  intros E. apply opts_vars in E. cbn [vars0 v_mode v_mongo v_mask_fmt v_mask v_infmt v_in_fmts v_ins v_outfmt v_out_fmts v_outs v_default v_upd v_nodata v_defaults v_upds v_nodatas v_types v_type v_reclss v_recls v_tables app] in E.
  destruct E as (E1 & E2 & E3 & E4 & E5 & E6 & E7 & E8 & E9 & E10 & E11 & E12 & E13 & E14 & E15).
  rewrite (fold_one "MODE" (fun _ l => StringToIOMode (hd [] l))) in E1.
  rewrite (fold_two "MONGO" "MONGODB" (fun x l => or_else (conn (firstn 4 l)) x)) in E2 by (vm_compute; congruence).
  rewrite (fold_one "MASK" (fun x l => match parsed ex "MASK" l with Some (f, p :: _) => (f, p) | _ => x end)) in E3.
  rewrite (fold_two "IN" "INPUT" (fmt_of ex "IN")) in E4 by (vm_compute; congruence).
  rewrite (flat_two "IN" "INPUT" (fun l => map fst (ins_of ex l))) in E5 by (vm_compute; congruence).
  rewrite (flat_two "IN" "INPUT" (fun l => map snd (ins_of ex l))) in E6 by (vm_compute; congruence).
  rewrite (fold_two "OUT" "OUTPUT" (fmt_of ex "OUT")) in E7 by (vm_compute; congruence).
  rewrite (flat_two "OUT" "OUTPUT" (fun l => map fst (outs_of ex l))) in E8 by (vm_compute; congruence).
  rewrite (flat_two "OUT" "OUTPUT" (fun l => map snd (outs_of ex l))) in E9 by (vm_compute; congruence).
  rewrite (fold_two "DEFAULT" "DEFAULTVALUE" (fun _ l => number_or_nodata strtod nd (hd [] l))) in E10 by (vm_compute; congruence).
  rewrite (fold_two "NODATA" "NODATAVALUE" (fun _ l => (true, number_or_nodata strtod nd (hd [] l)))) in E11 by (vm_compute; congruence).
  rewrite (fold_one "OUTDATATYPE" (fun _ l => StringToRasterDataType (hd [] l))) in E13.
  rewrite (fold_one "RECLASS" (fun _ l => snd (parse_key_values strtod (hd [] l)))) in E14.
  pose proof (eq_trans E15 (flat_one "RECLASS" (fun l => [fst (parse_key_values strtod (hd [] l))]))) as E15'. clear E15. rename E15' into E15.
  assert (FM : forall {A B C} (f : A -> list B) (g : B -> C) l, flat_map (fun x => map g (f x)) l = map g (flat_map f l)).
  { clear. intros A B C f g l. induction l; cbn; [reflexivity|]. rewrite map_app, IHl. reflexivity. }
  rewrite FM in E5, E6, E8, E9.
  split; [exact E1|]. split; [exact E2|]. split; [exact E3|]. split; [exact E4|]. split; [exact E5|]. split; [exact E6|].
  split; [exact E7|]. split; [exact E8|]. split; [exact E9|].
  split. { rewrite E10. unfold given2. destruct (lookup keys (str "DEFAULT")), (lookup keys (str "DEFAULTVALUE")); reflexivity. }
  unfold given2.
  destruct (lookup keys (str "NODATA")), (lookup keys (str "NODATAVALUE")); cbn [opt_list app fold_left is_some] in *; injection E11 as E11a E11b;
    (split; [exact E11a|]); (split; [exact E11b|]); (split; [exact E12|]); (split; [exact E13|]); (split; [exact E14|]);
    rewrite E15; destruct (lookup keys (str "RECLASS")); reflexivity.
Qed.
End Vars.

(** ** Items *)
Section Items.
Context {V : Type}.
Variable strtod : bytes -> V * nat.
Variable nd : V.
Variable ex : bytes -> bool.
Notation istep := (item_step strtod nd ex).

Definition same_globals (v v' : vars V) : Prop :=
  v_mode v' = v_mode v /\ v_threads v' = v_threads v /\ v_inc v' = v_inc v /\ v_mongo v' = v_mongo v /\
  v_mask_fmt v' = v_mask_fmt v /\ v_mask v' = v_mask v /\ v_default v' = v_default v /\ v_upd v' = v_upd v /\
  v_nodata v' = v_nodata v /\ v_type v' = v_type v /\ v_recls v' = v_recls v.
Definition appended (v v' : vars V) (js : list (job V)) : Prop :=
  v_in_fmts v' = v_in_fmts v ++ map j_infmt js /\ v_ins v' = v_ins v ++ map j_ins js /\
  v_out_fmts v' = v_out_fmts v ++ map j_outfmt js /\ v_outs v' = v_outs v ++ map j_out js /\
  v_defaults v' = v_defaults v ++ map j_default js /\ v_upds v' = v_upds v ++ map j_upd js /\ v_nodatas v' = v_nodatas v ++ map j_nodata js /\
  v_types v' = v_types v ++ map j_type js /\ v_reclss v' = v_reclss v ++ map j_recls js /\ v_tables v' = v_tables v ++ map j_table js.

(** When an item makes a data set. *)
Definition taken (f : datafmt) (it : list bytes) : bool :=
  (negb (FilesExist ex (item_ins it)) && snd (match nth_error it 5 with None => ([], false) | Some s => parse_key_values strtod s end))
  || (fmt_is f SFILE && FilesExist ex (item_ins it)) || fmt_is f GFS.

Lemma number_of_field (it : list bytes) i : 
  match field it i with None => nd | Some s => number_or_nodata strtod nd s end = or_else (number_of strtod (nth i it [])) nd.
Proof.
  unfold field. destruct (nth_error it i) as [s|] eqn:E.
  - rewrite (nth_error_nth it i [] E). destruct s as [|c s]; [reflexivity|]. unfold number_or_nodata, IsDouble, number_of.
    destruct (strtod (c :: s)) as [x n]. cbn [fst snd]. destruct (Nat.eqb n _); reflexivity.
  - rewrite nth_overflow; [reflexivity|]. apply nth_error_None. exact E.
Qed.
Lemma nodata_of_field (it : list bytes) i : 
  match field it i with None => (nd, false) | Some s => let (x, ok) := IsDouble V strtod s in if ok then (x, true) else (nd, false) end
  = (or_else (number_of strtod (nth i it [])) nd, is_some (number_of strtod (nth i it []))).
Proof.
  unfold field. destruct (nth_error it i) as [s|] eqn:E.
  - rewrite (nth_error_nth it i [] E). destruct s as [|c s]; [reflexivity|]. unfold IsDouble, number_of.
    destruct (strtod (c :: s)) as [x n]. cbn [fst snd]. destruct (Nat.eqb n _); reflexivity.
  - rewrite nth_overflow; [reflexivity|]. apply nth_error_None. exact E.
Qed.

Lemma istep_cases v it v' : istep v it = Ok v' ->
  (blank it = true /\ v' = v) \/
  (blank it = false /\ exists js, v' = set_lists (item_fmts ex v (item_ins it))
       (v_in_fmts v ++ map j_infmt js) (v_ins v ++ map j_ins js) (v_out_fmts v ++ map j_outfmt js) (v_outs v ++ map j_out js)
       (v_defaults v ++ map j_default js) (v_upds v ++ map j_upd js) (v_nodatas v ++ map j_nodata js) (v_types v ++ map j_type js)
       (v_reclss v ++ map j_recls js) (v_tables v ++ map j_table js) /\
     (if taken (v_infmt (item_fmts ex v (item_ins it))) it
      then exists j, js = [j] /\ says strtod nd (v_type v) it j /\ j_infmt j = v_infmt v' /\ j_outfmt j = v_outfmt v'
      else js = [])).
Proof.
  intros E. destruct it as [|f0 rest]; [discriminate|].
  assert (B : blank (f0 :: rest) = true /\ v' = v \/ blank (f0 :: rest) = false /\
    (let v1 := item_fmts ex v (SplitString_d f0 ",") in
     let it := f0 :: rest in let ins := SplitString_d f0 "," in let out := nth 1 it [] in
     let dv := match field it 2 with None => nd | Some s => number_or_nodata strtod nd s end in
          let (nd', upd) := match field it 3 with
                           | None => (nd, false)
                           | Some s => let (x, ok) := IsDouble V strtod s in if ok then (x, true) else (nd, false)
                           end in
          let ty := match nth_error it 4 with
                    | None => RDT_Unknown
                    | Some s => match StringToRasterDataType s with RDT_Unknown => v_type v1 | t => t end
                    end in
          let (tab, recls) := match nth_error it 5 with None => ([], false) | Some s => parse_key_values strtod s end in
          if (negb (FilesExist ex ins) && recls) || (fmt_is (v_infmt v1) SFILE && FilesExist ex ins)
             || fmt_is (v_infmt v1) GFS
          then Ok (set_lists v1 (v_in_fmts v1 ++ [v_infmt v1]) (v_ins v1 ++ [ins]) (v_out_fmts v1 ++ [v_outfmt v1]) (v_outs v1 ++ [out])
                 (v_defaults v1 ++ [dv]) (v_upds v1 ++ [upd]) (v_nodatas v1 ++ [nd']) (v_types v1 ++ [ty])
                 (v_reclss v1 ++ [recls]) (v_tables v1 ++ [tab]))
          else Ok v1) = Ok v').
  { unfold blank, item_out, item_ins. cbn [nth]. unfold item_step in E. destruct f0 as [|c f0].
    - destruct rest as [|o rest]; [left; injection E as ->; split; reflexivity|]. right. cbn [length Nat.eqb].
      split; [change (SplitString_d [] ",") with (@nil bytes); destruct o; reflexivity|]. exact E.
    - destruct (SplitString_d (c :: f0) ",") as [|[|c' s] [|y ys]] eqn:ES.
      + right. split; [|destruct rest; exact E]. exfalso. unfold SplitString_d in ES. cbn [length split_loop] in ES.
        destruct (span_delim "," (c :: f0)) as [a [b|]]; discriminate.
      + destruct rest as [|[|o1 o] rest]; [left; injection E as ->; auto|left; injection E as ->; auto|right; split; [reflexivity|exact E]].
      + right. split; [destruct rest as [|[|] ?]; reflexivity|destruct rest; exact E].
      + right. split; [destruct rest as [|[|] ?]; reflexivity|destruct rest; exact E].
      + right. split; [destruct rest as [|[|] ?]; reflexivity|destruct rest; exact E]. }
  clear E. destruct B as [B|[B E]]; [left; exact B|right; split; [exact B|]].
  cbv zeta in E. rewrite number_of_field, nodata_of_field in E. unfold taken, item_ins. cbn [nth] in *. 
  set (v1 := item_fmts ex v (SplitString_d f0 ",")) in *.
  assert (L : v_in_fmts v1 = v_in_fmts v /\ v_ins v1 = v_ins v /\ v_out_fmts v1 = v_out_fmts v /\ v_outs v1 = v_outs v /\
    v_defaults v1 = v_defaults v /\ v_upds v1 = v_upds v /\ v_nodatas v1 = v_nodatas v /\ v_types v1 = v_types v /\ v_reclss v1 = v_reclss v /\ v_tables v1 = v_tables v /\ v_type v1 = v_type v) by (cbv; auto 20).
  destruct L as (L1 & L2 & L3 & L4 & L5 & L6 & L7 & L8 & L9 & L10 & L11).
  destruct (match nth_error (f0 :: rest) 5 with Some s => parse_key_values strtod s | None => ([], false) end) as [tab recls] eqn:ET. cbn [snd].
  destruct (_ || _ || _) eqn:T.
  - injection E as <-.
    eexists [mkJob (v_infmt v1) (SplitString_d f0 ",") (v_outfmt v1) _ _ _ _ _ _ _]. split; [reflexivity|].
    eexists. split; [reflexivity|]. split; [|split; reflexivity].
    repeat split. cbn [j_table j_recls]. symmetry. exact ET.
  - injection E as <-. exists []. split; [|reflexivity]. cbn [map]. rewrite !app_nil_r, <- L1, <- L2, <- L3, <- L4, <- L5, <- L6, <- L7, <- L8, <- L9, <- L10.
    unfold v1, item_fmts, set_fmts, set_lists. cbn. reflexivity.
Qed.

Lemma istep_globals v it v' : istep v it = Ok v' -> same_globals v v'.
Proof.
  intros E. apply istep_cases in E. destruct E as [[_ ->]|[_ (js & -> & _)]]; unfold same_globals; cbv; auto 20.
Qed.
Lemma same_trans a b c : same_globals a b -> same_globals b c -> same_globals a c.
Proof. unfold same_globals. intuition congruence. Qed.

Lemma says_type ty ty' it j : ty = ty' -> says strtod nd ty it j -> says strtod nd ty' it j.
Proof. intros ->. auto. Qed.

Lemma items_jobs l : forall v v', items strtod nd ex v l = Ok v' ->
  same_globals v v' /\ exists kept js, sublist kept l /\ Forall (fun it => blank it = false) kept /\
    Forall2 (says strtod nd (v_type v)) kept js /\ appended v v' js.
Proof.
  induction l as [|it l IH]; intros v v' E; cbn [items] in E.
  { injection E as <-. split; [unfold same_globals; auto 20|]. exists [], []. repeat split; try constructor; cbn; rewrite app_nil_r; reflexivity. }
  destruct (istep v it) as [v1| |] eqn:S; try discriminate. cbn [obind] in E.
  destruct (IH _ _ E) as (G & kept & js & K1 & K2 & K3 & K4).
  pose proof (istep_globals _ _ _ S) as G1. split; [eapply same_trans; eassumption|].
  assert (TY : v_type v1 = v_type v) by (unfold same_globals in G1; tauto). rewrite TY in K3.
  apply istep_cases in S. destruct S as [[_ ->]|[B (js1 & -> & S)]].
  - exists kept, js. split; [constructor; assumption|]. auto.
  - set (v1 := set_lists _ _ _ _ _ _ _ _ _ _ _) in *.
    assert (A : appended v v' (js1 ++ js)).
    { destruct K4 as (A1 & A2 & A3 & A4 & A5 & A6 & A7 & A8 & A9 & A10).
      unfold appended. rewrite !map_app, !app_assoc. repeat split; assumption. }
    destruct (taken _ it).
    + destruct S as (j & -> & S1 & _). exists (it :: kept), (j :: js). repeat split; try constructor; auto; apply A.
    + subst js1. exists kept, js. split; [constructor; assumption|]. auto.
Qed.
End Items.
