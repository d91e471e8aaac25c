(** Proofs about the attribute reader.  *)
From Coq Require Import String Ascii Bool Arith Lia List.
From Verif Require Import Base Tokens Method MethodSpec MethodProofs Paths Context Flavor Attrs FlavorSpec MapFacts RenderProofs FlavorNameProofs FlavorTomlProofs AttrSpec.
Import ListNotations.
Open Scope string_scope.
Open Scope list_scope.

Lemma plain_spec p n : path_is_hooq p n = true <-> plain_path p n.
Proof.
  unfold path_is_hooq, plain_path, seg_is. split.
  - destruct p as [ld [|[i1 a1 sp1] [|[i2 a2 sp2] [|x y]]]]; cbn [p_lead p_segs seg_id seg_args]; rewrite ?andb_false_r; try discriminate.
    destruct ld; [discriminate|]. destruct a1; rewrite ?andb_false_r; try discriminate. destruct a2; rewrite ?andb_false_r; try discriminate.
    rewrite !andb_true_r. intros H. cbn [negb andb] in H. apply andb_true_iff in H. destruct H as [H1 H2].
    apply String.eqb_eq in H1, H2. subst. exists sp1, sp2. reflexivity.
  - intros (s1 & s2 & ->). cbn [p_lead p_segs seg_id seg_args negb]. rewrite !String.eqb_refl. reflexivity.
Qed.
Lemma plain_neq p n k : plain_path p n -> path_is_hooq p k = String.eqb n k.
Proof.
  intros (s1 & s2 & ->). unfold path_is_hooq, seg_is. cbn [p_lead p_segs seg_id seg_args negb andb].
  rewrite String.eqb_refl. cbn [andb]. now rewrite andb_true_r.
Qed.
Lemma plain_hooq p n : plain_path p n -> hooq_path p = true.
Proof. intros (s1 & s2 & ->). reflexivity. Qed.
Lemma is_hooq_hooq p n : path_is_hooq p n = true -> hooq_path p = true.
Proof. intros H. apply plain_spec in H. eapply plain_hooq, H. Qed.

(** the three outcomes of [get_binding_name] *)
Definition too_long (p : path) : Prop := exists s r, p_segs p = s :: r /\ seg_id s = "hooq" /\ 2 <= length r.
Lemma name_spec p :
  match get_binding_name p with
  | Ok (Some b) => exists s1 s2, p_segs p = [s1; s2] /\ seg_id s1 = "hooq" /\ b = seg_id s2
  | Ok None => hooq_path p = false /\ ~ too_long p
  | Err e => hooq_path p = false /\ too_long p /\ e = ErrAttrPath
  | Panic _ => False
  end.
Proof.
  unfold get_binding_name, hooq_path, too_long. destruct p as [ld [|[i1 a1 sp1] l]]; cbn [p_segs seg_id].
  - split; [reflexivity|]. intros (s & r & H & _). discriminate.
  - destruct (String.eqb_spec i1 "hooq") as [->|Hn]; cbn [negb].
    + destruct l as [|x [|y l]].
      * split; [reflexivity|]. intros (s & r & H & _ & Hl). inversion H; subst. simpl in Hl. lia.
      * eexists _, _. repeat split.
      * split; [reflexivity|]. split; [|reflexivity]. eexists _, _. split; [reflexivity|]. split; [reflexivity|]. simpl. lia.
    + split.
      * destruct l as [|x [|y l]]; reflexivity.
      * intros (s & r & H & Hi & _). inversion H; subst. now apply Hn.
Qed.
Lemma hooq_name p : hooq_path p = true -> exists s1 s2, p_segs p = [s1; s2] /\ seg_id s1 = "hooq" /\ get_binding_name p = Ok (Some (seg_id s2)).
Proof.
  unfold hooq_path, get_binding_name. destruct p as [ld [|s1 [|s2 [|x l]]]]; cbn [p_segs]; try discriminate.
  intros H. rewrite H. apply String.eqb_eq in H. exists s1, s2. auto.
Qed.
Lemma not_hooq_is p n : hooq_path p = false -> path_is_hooq p n = false.
Proof. intros H. destruct (path_is_hooq p n) eqn:E; [|reflexivity]. apply is_hooq_hooq in E. congruence. Qed.

Lemma strings_spec ts : forall l, parse_strings ts = Some l <-> string_list ts l.
Proof.
  assert (G : forall n ts, length ts <= n -> forall l, parse_strings ts = Some l <-> string_list ts l); [|intros; apply (G (length ts)); lia].
  induction n as [|n IH]; intros [|t ts'] Hlen l; simpl in Hlen; try lia.
  1,2: split; [intros H; inversion H; constructor | intros H; inversion H; reflexivity].
  split.
  - cbn [parse_strings]. destruct t as [|x sp|x sp|]; try discriminate. destruct x; try discriminate.
    destruct ts' as [|[|c sp2|x2 sp2|] ts'']; try discriminate.
    + intros H. inversion H. constructor.
    + destruct c as [[] [] [] [] [] [] [] []]; try discriminate. destruct (parse_strings ts'') as [l2|] eqn:E; [|discriminate].
      intros H. inversion H. apply sl_more. apply IH; [simpl in Hlen; lia|exact E].
  - intros H. inversion H as [|s sp|s sp sp2 r l0 Hr]; subst; [reflexivity|]. cbn [parse_strings]. apply IH in Hr; [|simpl in Hlen; lia]. rewrite Hr. reflexivity.
Qed.
Lemma strings_res_spec ts l : parse_strings_res ts = Ok l <-> string_list ts l.
Proof.
  unfold parse_strings_res. rewrite <- strings_spec. destruct (parse_strings ts); split; congruence.
Qed.
Lemma bool_spec ts b : parse_bool ts = Ok b -> exists sp, ts = [TIdent (if b then "true" else "false") sp].
Proof.
  unfold parse_bool. destruct ts as [|[s sp| | |] [|y z]]; try discriminate.
  - destruct (String.eqb_spec s "true") as [->|H1]; [intros H; inversion H; eauto|].
    destruct (String.eqb_spec s "false") as [->|H2]; [intros H; inversion H; eauto|].
    intros H. exfalso. revert H.
    repeat match goal with |- context [match ?x with _ => _ end] => is_var x; destruct x; try discriminate end; congruence.
  - intros H. exfalso. revert H. repeat match goal with |- context [match ?x with _ => _ end] => is_var x; destruct x; try discriminate end.
Qed.

Section Proofs.
  Variable env : attr_env.

  Lemma named_spec v s f : flavor_of_value env v s = Ok f <-> flavor_named env v f.
  Proof.
    unfold flavor_of_value, flavor_named, get_flavor_path. split.
    - intros H. apply bindR_Ok in H. destruct H as (l & H1 & H2). exists l. split; [|exact H2]. destruct v as [p|x sp|ts]; [|apply string_path_splits in H1; constructor; apply H1|discriminate].
      apply path_path in H1. destruct H1 as [-> H1]. constructor. exact H1.
    - intros (l & H1 & H2). inversion H1; subst.
      + cbn [bindR]. rewrite (proj2 (path_path p (p_idents p))) by auto. exact H2.
      + rewrite (proj2 (string_path_splits _ _) (conj H H0)). exact H2.
  Qed.

  Definition apply_event (e : event) (i : inert) : inert :=
    match e with
    | EvMethod m => set_method m i
    | EvTargets w => set_targets w i
    | EvTails l => set_tails (plain_names l) (match in_ignores i with Some v => Some (v ++ bang_names l) | None => match bang_names l with [] => None | _ => Some (bang_names l) end end) i
    | EvTailsFrom t g => set_tails t (Some g) i
    | EvIgnores l => set_ignores (match in_ignores i with Some v => Some (v ++ l) | None => Some l end) i
    | EvResults l => set_results l i
    | EvMacros b => set_macros b i
    | EvBind l => add_bindings l i
    | EvSkip => set_skip i
    | EvSkipAll => set_skip_all i
    | EvFlavor f => add_bindings (fl_bindings f) (set_macros (fl_macros f) (set_results (fl_results f)
                      (set_tails (fl_tails f) (Some (fl_ignores f)) (set_targets (fl_targets f) (set_method (fl_method f) i)))))
    end.

  Ltac decide_path p n H := destruct (path_is_hooq p n) eqn:H; [apply plain_spec in H|].

  Lemma plain_not p s1 s2 n : p = mk_path false [mk_seg "hooq" [] s1; mk_seg n [] s2] -> forall k, path_is_hooq p k = String.eqb n k.
  Proof. intros -> k. apply plain_neq. exists s1, s2. reflexivity. Qed.

  Lemma fallback p n b : hooq_path p = true -> get_binding_name p = Ok (Some b) ->
    (forall k, In k ["flavor"; "method"; "hook_targets"; "tail_expr_idents"; "ignore_tail_expr_idents"; "result_types"; "hook_in_macros"; "bindings"] -> path_is_hooq p k = false) ->
    forall v, n = b -> reads env (MNameValue p v) (EvBind [(n, mvalue_toks v)]).
  Proof.
    intros Hh Hn Hk v ->. destruct (hooq_name p Hh) as (s1 & s2 & H1 & H2 & H3). rewrite H3 in Hn. inversion Hn; subst b.
    destruct p as [ld sg]. cbn [p_segs] in H1. subst sg. destruct s1 as [i1 a1 sp1], s2 as [i2 a2 sp2]. cbn [seg_id] in *. subst i1.
    destruct ld; [right; apply odd_path with (s1 := mk_seg "hooq" a1 sp1) (s2 := mk_seg i2 a2 sp2); auto|].
    destruct a1 as [|x1 a1]; [|right; apply odd_path with (s1 := mk_seg "hooq" (x1 :: a1) sp1) (s2 := mk_seg i2 a2 sp2); cbn [seg_args]; auto; right; left; discriminate].
    destruct a2 as [|x2 a2]; [|right; apply odd_path with (s1 := mk_seg "hooq" [] sp1) (s2 := mk_seg i2 (x2 :: a2) sp2); cbn [seg_args]; auto; right; right; discriminate].
    destruct (in_dec string_dec i2 reserved) as [Hr|Hr].
    - right. eapply odd_reserved; [reflexivity|].
      assert (Hx : forall k, path_is_hooq (mk_path false [mk_seg "hooq" [] sp1; mk_seg i2 [] sp2]) k = String.eqb i2 k)
        by (intros k; eapply plain_not; reflexivity).
      unfold reserved in Hr.
      assert (Hy : forall k, In k ["flavor"; "method"; "hook_targets"; "tail_expr_idents"; "ignore_tail_expr_idents"; "result_types"; "hook_in_macros"; "bindings"] -> i2 <> k).
      { intros k Hin ->. specialize (Hk _ Hin). rewrite Hx, String.eqb_refl in Hk. discriminate. }
      cbn [In] in Hr, Hy |- *.
      repeat match type of Hr with _ \/ _ => destruct Hr as [Hr|Hr] | False => destruct Hr end; subst; try tauto; exfalso; refine (Hy _ _ eq_refl); tauto.
    - left. eapply mn_bind; [reflexivity|exact Hr].
  Qed.

  (** one turn of the loop *)
  Lemma step_sound i m i' b : attr_step env i m = Ok (i', b) ->
    if b then i' = i /\ hooq_path (meta_path m) = false /\ ~ too_long (meta_path m)
    else hooq_path (meta_path m) = true /\ exists e, reads env m e /\ i' = apply_event e i.
  Proof.
    destruct m as [p|p d ts sp|p v]; cbn [attr_step meta_path]; intros H.
    - decide_path p "skip" E1.
      { inversion H; subst. split; [eapply plain_hooq, E1|]. exists EvSkip. split; [left; constructor; exact E1|reflexivity]. }
      decide_path p "skip_all" E2.
      { inversion H; subst. split; [eapply plain_hooq, E2|]. exists EvSkipAll. split; [left; constructor; exact E2|reflexivity]. }
      pose proof (name_spec p) as Hn. destruct (get_binding_name p) as [[n|]|e|q]; try discriminate. cbn [bindR] in H. inversion H; subst. tauto.
    - decide_path p "method" E1.
      { inversion H; subst. split; [eapply plain_hooq, E1|]. eexists. split; [left; apply mn_method; [exact E1|apply parse_method_ok]|reflexivity]. }
      decide_path p "hook_targets" E2.
      { apply bindR_Ok in H. destruct H as (l & Hl & H). destruct (switch_try_from l) as [w|w] eqn:Ew; [|discriminate].
        inversion H; subst. split; [eapply plain_hooq, E2|]. exists (EvTargets w). split; [left; eapply mn_targets; [exact E2|apply strings_res_spec, Hl|apply switch_ok, Ew]|reflexivity]. }
      decide_path p "tail_expr_idents" E3.
      { apply bindR_Ok in H. destruct H as (l & Hl & H). rewrite split_include_spec in H. inversion H; subst. split; [eapply plain_hooq, E3|].
        exists (EvTails l). split; [left; eapply mn_tails; [exact E3|apply strings_res_spec, Hl]|reflexivity]. }
      decide_path p "ignore_tail_expr_idents" E4.
      { apply bindR_Ok in H. destruct H as (l & Hl & H). inversion H; subst. split; [eapply plain_hooq, E4|].
        exists (EvIgnores l). split; [left; eapply mn_ignores; [exact E4|apply strings_res_spec, Hl]|reflexivity]. }
      decide_path p "result_types" E5.
      { apply bindR_Ok in H. destruct H as (l & Hl & H). inversion H; subst. split; [eapply plain_hooq, E5|].
        exists (EvResults l). split; [left; eapply mn_results; [exact E5|apply strings_res_spec, Hl]|reflexivity]. }
      decide_path p "hook_in_macros" E6.
      { apply bindR_Ok in H. destruct H as (x & Hl & H). inversion H; subst. split; [eapply plain_hooq, E6|].
        exists (EvMacros x). split; [|reflexivity]. left. apply bool_spec in Hl. destruct Hl as (sp2 & ->). destruct x; constructor; exact E6. }
      destruct (path_is_hooq p "binding" || path_is_hooq p "var") eqn:E7.
      { destruct (ae_mnv env ts) as [[q v]|] eqn:Em; [|discriminate]. destruct (path_get_ident q) as [n|] eqn:Eq; [|discriminate].
        inversion H; subst. apply orb_true_iff in E7. rewrite !plain_spec in E7.
        split; [destruct E7 as [E7|E7]; eapply plain_hooq, E7|]. exists (EvBind [(n, v)]). split; [|reflexivity]. left.
        unfold path_get_ident in Eq. destruct q as [[] [|sg [|]]]; cbn [p_lead p_segs] in Eq; try discriminate.
        destruct (seg_args sg) eqn:Ea; inversion Eq; subst. eapply mn_binding; eassumption. }
      pose proof (name_spec p) as Hn. destruct (get_binding_name p) as [[n|]|e|q]; try discriminate. cbn [bindR] in H. inversion H; subst. tauto.
    - assert (Z : forall k f, plain_path p k -> flavor_of_value env v k = Ok f -> hooq_path p = true /\ flavor_named env v f).
      { intros k f Hk Hf. split; [eapply plain_hooq, Hk|eapply named_spec, Hf]. }
      decide_path p "flavor" E1.
      { apply bindR_Ok in H. destruct H as (f & Hf & H). inversion H; subst. destruct (Z _ _ E1 Hf). split; [assumption|].
        exists (EvFlavor f). split; [left; apply mn_from_flavor; assumption|reflexivity]. }
      decide_path p "method" E2.
      { apply bindR_Ok in H. destruct H as (f & Hf & H). inversion H; subst. destruct (Z _ _ E2 Hf). split; [assumption|].
        exists (EvMethod (fl_method f)). split; [left; apply mn_from_method; assumption|reflexivity]. }
      decide_path p "hook_targets" E3.
      { apply bindR_Ok in H. destruct H as (f & Hf & H). inversion H; subst. destruct (Z _ _ E3 Hf). split; [assumption|].
        exists (EvTargets (fl_targets f)). split; [left; apply mn_from_targets; assumption|reflexivity]. }
      decide_path p "tail_expr_idents" E4.
      { apply bindR_Ok in H. destruct H as (f & Hf & H). inversion H; subst. destruct (Z _ _ E4 Hf). split; [assumption|].
        exists (EvTailsFrom (fl_tails f) (fl_ignores f)). split; [left; apply mn_from_tails; assumption|reflexivity]. }
      decide_path p "ignore_tail_expr_idents" E5; [discriminate|].
      decide_path p "result_types" E6.
      { apply bindR_Ok in H. destruct H as (f & Hf & H). inversion H; subst. destruct (Z _ _ E6 Hf). split; [assumption|].
        exists (EvResults (fl_results f)). split; [left; apply mn_from_results; assumption|reflexivity]. }
      decide_path p "hook_in_macros" E7.
      { apply bindR_Ok in H. destruct H as (f & Hf & H). inversion H; subst. destruct (Z _ _ E7 Hf). split; [assumption|].
        exists (EvMacros (fl_macros f)). split; [left; apply mn_from_macros; assumption|reflexivity]. }
      decide_path p "bindings" E8.
      { apply bindR_Ok in H. destruct H as (f & Hf & H). inversion H; subst. destruct (Z _ _ E8 Hf). split; [assumption|].
        exists (EvBind (fl_bindings f)). split; [left; apply mn_from_bindings; assumption|reflexivity]. }
      pose proof (name_spec p) as Hn. destruct (get_binding_name p) as [[n|]|e|q] eqn:En; try discriminate; cbn [bindR] in H; inversion H; subst.
      + destruct Hn as (s1 & s2 & H1 & H2 & H3).
        assert (Hh : hooq_path p = true) by (unfold hooq_path; rewrite H1, H2; reflexivity).
        split; [exact Hh|]. eexists. split; [eapply fallback; [exact Hh|exact En| |reflexivity]|reflexivity].
        cbn [In]. intros k Hk. destruct Hk as [<-|[<-|[<-|[<-|[<-|[<-|[<-|[<-|[]]]]]]]]]; assumption.
      + tauto.
  Qed.

  Ltac plain_rw H := rewrite !(plain_neq _ _ _ H); cbn -[plain_names bang_names].

  Lemma step_complete i m e : reads env m e -> attr_step env i m = Ok (apply_event e i, false).
  Proof.
    intros [H|H].
    - inversion H; subst; cbn [attr_step].
      + plain_rw H0. apply parse_method_spec in H1. rewrite H1. reflexivity.
      + plain_rw H0. apply strings_res_spec in H1. apply switch_ok in H2. rewrite H1. cbn [bindR]. rewrite H2. reflexivity.
      + plain_rw H0. apply strings_res_spec in H1. rewrite H1. cbn [bindR]. rewrite split_include_spec. reflexivity.
      + plain_rw H0. apply strings_res_spec in H1. rewrite H1. reflexivity.
      + plain_rw H0. apply strings_res_spec in H1. rewrite H1. reflexivity.
      + plain_rw H0. reflexivity.
      + plain_rw H0. reflexivity.
      + assert (Hi : path_get_ident (mk_path false [sg]) = Some (seg_id sg)).
        { unfold path_get_ident. cbn [p_lead p_segs]. rewrite H2. reflexivity. }
        destruct H0 as [H0|H0]; plain_rw H0; rewrite H1, Hi; reflexivity.
      + assert (Hx := plain_not _ _ _ _ (eq_refl (mk_path false [mk_seg "hooq" [] sp1; mk_seg n [] sp2]))). rewrite !Hx.
        assert (Hy : forall k, In k reserved -> String.eqb n k = false).
        { intros k Hk. destruct (String.eqb_spec n k) as [->|]; [contradiction|reflexivity]. }
        rewrite !Hy by (unfold reserved; cbn [In]; tauto). reflexivity.
      + plain_rw H0. reflexivity.
      + plain_rw H0. reflexivity.
      + plain_rw H0. apply (named_spec v "flavor") in H1. rewrite H1. reflexivity.
      + plain_rw H0. apply (named_spec v "method") in H1. rewrite H1. reflexivity.
      + plain_rw H0. apply (named_spec v "hook_targets") in H1. rewrite H1. reflexivity.
      + plain_rw H0. apply (named_spec v "tail_expr_idents") in H1. rewrite H1. reflexivity.
      + plain_rw H0. apply (named_spec v "result_types") in H1. rewrite H1. reflexivity.
      + plain_rw H0. apply (named_spec v "hook_in_macros") in H1. rewrite H1. reflexivity.
      + plain_rw H0. apply (named_spec v "bindings") in H1. rewrite H1. reflexivity.
    - inversion H; subst; cbn [attr_step].
      + assert (Hx := plain_not _ _ _ _ (eq_refl (mk_path false [mk_seg "hooq" [] sp1; mk_seg n [] sp2]))). rewrite !Hx.
        cbn [In] in H1. destruct H1 as [<-|[<-|[<-|[<-|[]]]]]; reflexivity.
      + assert (Hf : forall k, path_is_hooq p k = false).
        { intros k. destruct (path_is_hooq p k) eqn:E; [|reflexivity]. apply plain_spec in E. destruct E as (a & b & ->).
          cbn [p_segs p_lead] in *. inversion H0; subst. cbn [seg_args] in H2. destruct H2 as [H2|[H2|H2]]; congruence. }
        rewrite !Hf.
        assert (Hh : hooq_path p = true) by (unfold hooq_path; rewrite H0, H1; reflexivity).
        destruct (hooq_name p Hh) as (t1 & t2 & G1 & G2 & G3). rewrite G3. rewrite H0 in G1. inversion G1; subst. reflexivity.
  Qed.
  Lemma reads_hooq m e : reads env m e -> hooq_path (meta_path m) = true.
  Proof.
    intros H. apply (step_complete inert0) in H. apply step_sound in H. tauto.
  Qed.
  Lemma step_foreign i m : hooq_path (meta_path m) = false -> ~ too_long (meta_path m) -> attr_step env i m = Ok (i, true).
  Proof.
    intros H1 H2. assert (Hx := fun n => not_hooq_is _ n H1). pose proof (name_spec (meta_path m)) as Hn.
    destruct m as [p|p d ts sp|p v]; cbn [attr_step meta_path] in *; rewrite !Hx; cbn [orb];
      (destruct (get_binding_name p) as [[n|]|e|q]; [|reflexivity|tauto|contradiction]);
      destruct Hn as (s1 & s2 & G1 & G2 & _); unfold hooq_path in H1; rewrite G1, G2 in H1; discriminate.
  Qed.

  Fixpoint apply_events (es : list event) (i : inert) : inert := match es with [] => i | e :: r => apply_events r (apply_event e i) end.
  Lemma loop_sound l : forall i i' k, extract_loop env l i = Ok (i', k) ->
    exists es, node_events env l es /\ i' = apply_events es i /\ k = foreign l.
  Proof.
    induction l as [|a l IH]; intros i i' k H.
    - inversion H; subst. exists []. repeat split. constructor.
    - cbn [extract_loop] in H. apply bindR_Ok in H. destruct H as ([i1 b] & H1 & H). cbn [fst snd] in H. apply bindR_Ok in H.
      destruct H as ([i2 k2] & H2 & H). cbn [fst snd] in H. inversion H; subst. apply IH in H2. destruct H2 as (es & He & -> & ->).
      apply step_sound in H1. unfold foreign. cbn [filter]. destruct b.
      + destruct H1 as (-> & H3 & H4). exists es. rewrite H3. cbn [negb]. repeat split. apply ne_foreign; assumption.
      + destruct H1 as (H3 & e & H4 & ->). exists (e :: es). rewrite H3. cbn [negb]. repeat split. apply ne_hooq; assumption.
  Qed.
  Lemma loop_complete l es : node_events env l es -> forall i, extract_loop env l i = Ok (apply_events es i, foreign l).
  Proof.
    unfold foreign. induction 1 as [|a l e es Hh Hr He IH|a l es Hh Hl He IH]; intros i; [reflexivity| |]; cbn [extract_loop filter].
    - rewrite (step_complete i _ e Hr). cbn [bindR fst snd]. rewrite IH. cbn [bindR fst snd]. rewrite Hh. reflexivity.
    - rewrite (step_foreign i _ Hh Hl). cbn [bindR fst snd]. rewrite IH. cbn [bindR fst snd]. rewrite Hh. reflexivity.
  Qed.

  (** * The accumulated settings *)
  Lemma last_some_app {A} (a b : list (option A)) : last_some (a ++ b) = match last_some b with Some x => Some x | None => last_some a end.
  Proof. induction a as [|x a IH]; simpl; [destruct (last_some b); reflexivity|]. rewrite IH. destruct (last_some b); [reflexivity|]. reflexivity. Qed.
  Lemma last_get_app {A} k (a b : list (string * A)) : last_get k (a ++ b) = match last_get k b with Some x => Some x | None => last_get k a end.
  Proof. induction a as [|[k' v] a IH]; simpl; [destruct (last_get k b); reflexivity|]. rewrite IH. destruct (last_get k b); reflexivity. Qed.

  (** what the remaining events do, field by field *)
  Lemma apply_proj {A} (f : inert -> option A) (g : event -> option A) :
    (forall e i, f (apply_event e i) = match g e with Some x => Some x | None => f i end) ->
    forall es i, f (apply_events es i) = match last_of g es with Some x => Some x | None => f i end.
  Proof.
    intros Hs. unfold last_of. induction es as [|e es IH]; intros i; [reflexivity|]. simpl. rewrite IH, Hs.
    destruct (last_some (map g es)); reflexivity.
  Qed.
  Lemma apply_bool (f : inert -> bool) (g : event -> bool) :
    (forall e i, f (apply_event e i) = f i || g e) -> forall es i, f (apply_events es i) = f i || existsb g es.
  Proof.
    intros Hs. induction es as [|e es IH]; intros i; simpl; [now rewrite orb_false_r|]. rewrite IH, Hs. now rewrite orb_assoc.
  Qed.
  Lemma ignores_step es : forall i, in_ignores (apply_events es i) =
    match last_some (map ev_assigned es) with
    | Some b => Some (b ++ flat_map ev_listed (after_assigned es))
    | None => match in_ignores i with
              | Some v => Some (v ++ flat_map ev_listed es)
              | None => if existsb ev_touches es then Some (flat_map ev_listed es) else None
              end
    end.
  Proof.
    induction es as [|e es IH]; intros i.
    - simpl. destruct (in_ignores i); [now rewrite app_nil_r|reflexivity].
    - cbn [apply_events map last_some after_assigned flat_map existsb]. rewrite IH. destruct (last_some (map ev_assigned es)) as [b|] eqn:El; [reflexivity|].
      destruct e; cbn [apply_event ev_assigned ev_listed ev_touches set_method set_targets set_tails set_ignores set_results set_macros add_bindings set_skip set_skip_all in_ignores app flat_map existsb orb];
        try (destruct (in_ignores i) as [v|]; reflexivity).
      + destruct (in_ignores i) as [v|]; [now rewrite app_assoc|]. destruct (bang_names l) as [|x n]; cbn [app negb orb]; reflexivity.
      + destruct (in_ignores i) as [v|]; [now rewrite app_assoc|]. reflexivity.
  Qed.
  Lemma after_none es : last_some (map ev_assigned es) = None -> after_assigned es = es.
  Proof.
    destruct es as [|e r]; [reflexivity|]. cbn [map last_some after_assigned]. destruct (last_some (map ev_assigned r)); [discriminate|].
    intros ->. reflexivity.
  Qed.
  Lemma bindings_step es : forall i k, mget k (in_bindings (apply_events es i)) =
    match last_get k (flat_map ev_binds es) with Some v => Some v | None => mget k (in_bindings i) end.
  Proof.
    induction es as [|e es IH]; intros i k; [reflexivity|]. cbn [apply_events flat_map]. rewrite IH, last_get_app.
    destruct (last_get k (flat_map ev_binds es)); [reflexivity|].
    destruct e; cbn [apply_event ev_binds in_bindings set_method set_targets set_tails set_ignores set_results set_macros add_bindings set_skip set_skip_all];
      try reflexivity; apply mget_mextend.
  Qed.
  Lemma apply_set es : set_by es (apply_events es inert0).
  Proof.
    constructor.
    - rewrite (apply_proj in_method ev_method); [destruct (last_of ev_method es); reflexivity|]. intros [] i; reflexivity.
    - rewrite (apply_proj in_targets ev_targets); [destruct (last_of ev_targets es); reflexivity|]. intros [] i; reflexivity.
    - rewrite (apply_proj in_tails ev_tails); [destruct (last_of ev_tails es); reflexivity|]. intros [] i; reflexivity.
    - rewrite ignores_step. unfold node_ignores. destruct (last_some (map ev_assigned es)) eqn:E; [reflexivity|]. rewrite after_none by exact E. reflexivity.
    - rewrite (apply_proj in_results ev_results); [destruct (last_of ev_results es); reflexivity|]. intros [] i; reflexivity.
    - rewrite (apply_proj in_macros ev_macros); [destruct (last_of ev_macros es); reflexivity|]. intros [] i; reflexivity.
    - intros k. rewrite bindings_step. destruct (last_get k (flat_map ev_binds es)); reflexivity.
    - rewrite (apply_bool in_skip is_skip); [reflexivity|]. intros [] i; cbn; now rewrite ?orb_false_r, ?orb_true_r.
    - rewrite (apply_bool in_skip_all is_skip_all); [reflexivity|]. intros [] i; cbn; now rewrite ?orb_false_r, ?orb_true_r.
  Qed.
  Lemma apply_nodup es : forall i, NoDup (keys (in_bindings i)) -> NoDup (keys (in_bindings (apply_events es i))).
  Proof.
    induction es as [|e es IH]; intros i H; [exact H|]. simpl. apply IH. destruct e; cbn; try exact H; apply nodup_mextend, H.
  Qed.

  Lemma extract_ok l i k : extract env l = Ok (i, k) -> exists es, node_events env l es /\ set_by es i /\ k = foreign l /\ NoDup (keys (in_bindings i)).
  Proof.
    intros H. apply loop_sound in H. destruct H as (es & H1 & -> & ->). exists es. repeat split; try apply apply_set; [exact H1|].
    apply apply_nodup. constructor.
  Qed.
  Lemma extract_total l es : node_events env l es -> exists i, extract env l = Ok (i, foreign l) /\ set_by es i.
  Proof. intros H. exists (apply_events es inert0). split; [apply loop_complete, H|apply apply_set]. Qed.
  Lemma events_unique l es es' : node_events env l es -> node_events env l es' -> forall i i', set_by es i -> set_by es' i' ->
    in_method i = in_method i' /\ in_targets i = in_targets i' /\ in_tails i = in_tails i' /\ in_ignores i = in_ignores i' /\
    in_results i = in_results i' /\ in_macros i = in_macros i' /\ (forall k, mget k (in_bindings i) = mget k (in_bindings i')) /\
    in_skip i = in_skip i' /\ in_skip_all i = in_skip_all i'.
  Proof.
    intros H1 H2 i i' S1 S2. pose proof (loop_complete l es H1 inert0) as E1. pose proof (loop_complete l es' H2 inert0) as E2.
    rewrite E1 in E2. inversion E2 as [Hi]. pose proof (apply_set es) as A1. pose proof (apply_set es') as A2. rewrite Hi in A1.
    destruct S1, S2, A1, A2. repeat split; try congruence; intros; congruence.
  Qed.
  (** foreign attributes are left alone by a second reading *)
  Lemma extract_foreign l i k : extract env l = Ok (i, k) -> extract env k = Ok (inert0, k).
  Proof.
    intros H. apply extract_ok in H. destruct H as (es & H & _ & -> & _). unfold extract.
    assert (G : node_events env (foreign l) [] /\ foreign (foreign l) = foreign l).
    { unfold foreign. clear i. induction H as [|a l e es Hh Hr He IH|a l es Hh Hl He IH]; cbn [filter]; [split; [constructor|reflexivity]| |]; rewrite Hh; cbn [negb].
      - exact IH.
      - cbn [filter]. rewrite Hh. cbn [negb]. destruct IH as [IH1 ->]. split; [|reflexivity]. apply ne_foreign; assumption. }
    destruct G as [G1 G2]. pose proof (loop_complete _ _ G1 inert0) as E. rewrite G2 in E. exact E.
  Qed.
  Lemma step_no_panic i m q : (forall l q, ae_flavor env l <> Panic q) -> attr_step env i m <> Panic q.
  Proof.
    intros Hf. assert (Hn : forall v s q, flavor_of_value env v s <> Panic q).
    { intros v s q0. unfold flavor_of_value, get_flavor_path. destruct v as [p|x sp|ts]; cbn [bindR]; [| |discriminate].
      - unfold flavor_path_of_path. intros H. destruct (mapR _ _) eqn:E in H; cbn [bindR] in H; [now apply Hf in H|discriminate|].
        revert E. apply mapR_no_panic. intros y qq. repeat match goal with |- context [match ?x with _ => _ end] => destruct x end; discriminate.
      - unfold flavor_path_of_string. intros H. destruct (mapR _ _) eqn:E in H; cbn [bindR] in H; [now apply Hf in H|discriminate|].
        revert E. apply mapR_no_panic. intros y qq. repeat match goal with |- context [match ?x with _ => _ end] => destruct x end; discriminate. }
    assert (Hs : forall ts q, parse_strings_res ts <> Panic q) by (intros ts q0; unfold parse_strings_res; destruct (parse_strings ts); discriminate).
    assert (Hb : forall {A B} (x : res A) (f : A -> res B) q, (forall q, x <> Panic q) -> (forall a q, f a <> Panic q) -> bindR x f <> Panic q).
    { intros A B x f q0 H1 H2. destruct x; cbn [bindR]; [apply H2|discriminate|]. intros H. eapply H1. inversion H. reflexivity. }
    assert (Hg : forall p q, get_binding_name p <> Panic q) by (intros p q0; pose proof (name_spec p); destruct (get_binding_name p); try discriminate; contradiction).
    destruct m as [p|p d ts sp|p v]; cbn [attr_step]; repeat match goal with |- (if ?x then _ else _) <> _ => destruct x end; try discriminate;
      try (apply Hb; [auto|intros; discriminate]); try (apply Hb; [auto|]); intros;
      repeat match goal with |- context [match ?x with _ => _ end] => destruct x eqn:? end; try discriminate.
    all: try (unfold parse_bool in *; repeat match goal with H : context [match ?x with _ => _ end] |- _ => destruct x; try discriminate end).
    all: unfold parse_bool; repeat match goal with |- context [match ?x with _ => _ end] => destruct x; try discriminate end.
  Qed.
  Lemma extract_no_panic l q : (forall l q, ae_flavor env l <> Panic q) -> extract env l <> Panic q.
  Proof.
    intros Hf. unfold extract. generalize inert0. revert q. induction l as [|a l IH]; intros q i; [discriminate|]. cbn [extract_loop].
    destruct (attr_step env i (at_meta a)) as [[i1 b]|e|m] eqn:E; cbn [bindR]; [|discriminate|now apply step_no_panic in E].
    destruct (extract_loop env l (fst (i1, b))) as [[i2 k]|e|m] eqn:E2; cbn [bindR]; [discriminate|discriminate|]. now apply IH in E2.
  Qed.
End Proofs.
