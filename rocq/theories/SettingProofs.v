(** The context the walker carries to a position is the one the specification gives.  *)
From Coq Require Import String Ascii Bool Arith Lia List.
From Verif Require Import Base Tokens Method MethodSpec MethodProofs Paths Context Flavor Attrs Syntax SyntaxInd Render Walker RootAttr FlavorSpec FlavorNameProofs FlavorTomlProofs MapFacts RenderSpec RenderProofs AttrSpec AttrProofs
  SiteSpec ProgSpec SettingSpec WalkFacts BareProofs SiteProofs AccountProofs.
Import ListNotations.
Open Scope string_scope.
Open Scope list_scope.

Lemma skip_all_skipped tr : skip_all_holds tr = true -> skipped tr = true.
Proof.
  induction tr as [|[es| | | | |] tr IH]; cbn [skip_all_holds skipped]; try (intros H; exact H || exact (IH H)).
  destruct (node_skip_all es); [reflexivity|]. destruct (node_skip es); [discriminate|]. exact IH.
Qed.
Lemma methods_head f tr : exists r, all_methods f tr = the_method f tr :: r.
Proof.
  unfold the_method. induction tr as [|[es| | | | |] tr IH]; cbn [all_methods innermost]; try exact IH; [exists []; reflexivity|].
  destruct (last_of ev_method es); [eauto|exact IH].
Qed.

Section Reads.
  Variable env : attr_env.
  Lemma targets_unique l w w' : targets_of l w -> targets_of l w' -> w = w'.
  Proof. intros H H'. apply switch_ok in H, H'. congruence. Qed.
  Lemma strings_unique ts l l' : string_list ts l -> string_list ts l' -> l = l'.
  Proof. intros H H'. apply strings_spec in H, H'. congruence. Qed.
  Lemma flavor_unique v f f' : flavor_named env v f -> flavor_named env v f' -> f = f'.
  Proof.
    intros (l & Hl & Hf) (l' & Hl' & Hf'). assert (l = l') as <-; [|congruence].
    inversion Hl as [|s0 sp0 l0 A B]; subst; inversion Hl' as [|s1 sp1 l1 A' B']; subst; [reflexivity|].
    pose proof (proj1 (splits_exact _ _) A). pose proof (proj1 (splits_exact _ _) A'). congruence.
  Qed.
  Lemma plain_unique p n n' : plain_path p n -> plain_path p n' -> n = n'.
  Proof. intros (? & ? & ->) (? & ? & H). now inversion H. Qed.
  Lemma plain_segs p n : plain_path p n -> p_lead p = false /\ exists sp1 sp2, p_segs p = [mk_seg "hooq" [] sp1; mk_seg n [] sp2].
  Proof. intros (sp1 & sp2 & ->). split; [reflexivity|exists sp1, sp2; reflexivity]. Qed.
  Lemma reads_unique m e e' : reads env m e -> reads env m e' -> e = e'.
  Proof.
    intros [H|H] [H'|H']; inversion H; subst; inversion H'; subst; try reflexivity;
      try (exfalso; match goal with A : plain_path ?p ?x, B : plain_path ?p ?y |- _ => pose proof (plain_unique _ _ _ A B); discriminate end);
      try (match goal with A : string_list ?t ?x, B : string_list ?t ?y |- _ => pose proof (strings_unique _ _ _ A B); subst end);
      try (match goal with A : targets_of ?t ?x, B : targets_of ?t ?y |- _ => pose proof (targets_unique _ _ _ A B); subst end);
      try (match goal with A : method_of ?b ?t ?x, B : method_of ?b ?t ?y |- _ => pose proof (method_unique _ _ _ _ A B); subst end);
      try (match goal with A : flavor_named env ?t ?x, B : flavor_named env ?t ?y |- _ => pose proof (flavor_unique _ _ _ A B); subst end);
      try reflexivity; try congruence;
      try (exfalso; repeat match goal with A : _ \/ _ |- _ => destruct A end; match goal with A : plain_path ?p ?x, B : plain_path ?p ?y |- _ => pose proof (plain_unique _ _ _ A B); discriminate end);
      try (exfalso; match goal with A : plain_path (mk_path _ _) _ |- _ => apply plain_segs in A; cbn [p_lead p_segs] in A; destruct A as (? & ? & ? & A); inversion A; subst; cbn in *; tauto end);
      try (exfalso; match goal with A : plain_path _ _ |- _ => apply plain_segs in A; destruct A as (Ha & ? & ? & A); rewrite A in *; rewrite Ha in *;
        match goal with B : [_; _] = [_; _] |- _ => inversion B; subst; cbn [seg_args] in *; intuition congruence end end);
      try (exfalso; cbn [p_segs p_lead] in *; match goal with B : [_; _] = [_; _] |- _ => inversion B; subst; cbn [seg_args] in *; intuition congruence end).
    all: try (cbn in *; tauto).
    all: try (match goal with A : [_; _] = [_; _] |- _ => inversion A; subst; reflexivity end).
    all: exfalso; match goal with A : plain_path (mk_path _ _) _ |- _ => apply plain_segs in A; cbn [p_lead p_segs] in A; destruct A as (? & ? & ? & A) end;
      match goal with A : [_; _] = [_; _], B : In _ _ |- _ => injection A; intros; subst; cbn [In] in B; intuition discriminate end.
  Qed.
  Lemma node_unique l es es' : node_events env l es -> node_events env l es' -> es = es'.
  Proof.
    intros H. revert es'. induction H as [|a l e es Hh Hr He IH|a l es Hh Hl He IH]; intros es' H'; inversion H'; subst; try congruence; auto.
    f_equal; [eapply reads_unique; eassumption|auto].
  Qed.
End Reads.

Section Settings.
  Variable E : env.
  Variable f : fcore.
  Local Notation env := (ev_attr E).
  Local Notation c0 := (ctx_new f).

  Lemma trail_unique fr : forall tr tr', trail env fr tr -> trail env fr tr' -> tr = tr'.
  Proof.
    induction fr as [|x fr IH]; intros tr tr' H H'; inversion H; inversion H'; subst; [reflexivity|]. f_equal; [|eauto].
    match goal with H1 : step_of _ x _, H2 : step_of _ x _ |- _ => inversion H1; subst; inversion H2; subst; try reflexivity end.
    f_equal. eapply node_unique; eassumption.
  Qed.

  Lemma effect_root : in_effect f [] c0.
  Proof. constructor; try reflexivity. intros H. exact H. Qed.
  Lemma from_parent_val {T} (o : option T) p : fval (from_parent o p) = match o with Some v => v | None => fval p end.
  Proof. destruct o; reflexivity. Qed.
  Lemma effect_node tr c i es : in_effect f tr c -> set_by es i -> NoDup (keys (in_bindings i)) -> in_effect f (SNode es :: tr) (updated_by_inert_attr c i).
  Proof.
    intros [] [] Hnd.
    assert (Hfn : forall T (x y : option T) p, x = y -> fval (from_parent x p) = match y with Some v => v | None => fval p end) by (intros ? ? ? ? ->; apply from_parent_val).
    constructor; cbn [updated_by_inert_attr cx_method cx_targets cx_tails cx_ignores cx_results cx_macros cx_bindings cx_skip cx_fn all_methods nearest_fn fn_name fn_sig returns
                      skip_all_holds skipped]; try assumption.
    - rewrite sb_method. destruct (last_of ev_method es); cbn [from_parent RenderSpec.chain]; congruence.
    - unfold the_method in *. cbn [innermost]. erewrite Hfn by eassumption. rewrite ie_method. reflexivity.
    - unfold the_targets in *. cbn [innermost]. erewrite Hfn by eassumption. rewrite ie_targets. reflexivity.
    - unfold the_tails in *. cbn [innermost]. erewrite Hfn by eassumption. rewrite ie_tails. reflexivity.
    - unfold the_ignores in *. cbn [innermost]. erewrite Hfn by eassumption. rewrite ie_ignores. reflexivity.
    - unfold the_results in *. cbn [innermost]. erewrite Hfn by eassumption. rewrite ie_results. reflexivity.
    - unfold the_macros in *. cbn [innermost]. erewrite Hfn by eassumption. rewrite ie_macros. reflexivity.
    - intros x. unfold the_binding in *. cbn [innermost]. specialize (sb_bindings x). rewrite <- sb_bindings.
      destruct (in_bindings i) as [|b l] eqn:Eb.
      + cbn [merged_from_parent from_parent mget option_map]. apply ie_bindings.
      + cbn [merged_from_parent]. rewrite from_parent_val. rewrite mget_mextend. rewrite last_get_nodup by exact Hnd.
        destruct (mget x (b :: l)); cbn [option_map]; [reflexivity|apply ie_bindings].
    - intros Hn. destruct (in_bindings i) as [|b l] eqn:Eb; cbn [merged_from_parent from_parent]; [auto|]. cbn [fval]. apply nodup_mextend. auto.
    - rewrite from_parent_val. unfold get_skip_status, node_skip, node_skip_all. rewrite sb_skip, sb_skip_all.
      destruct (existsb is_skip_all es), (existsb is_skip es); cbn [option_map orb]; try reflexivity. exact ie_skip.
  Qed.
  Lemma effect_scope tr c : in_effect f tr c -> in_effect f (SScope :: tr) (for_sub_scope c).
  Proof.
    intros []. constructor; try assumption. cbn [for_sub_scope cx_skip skip_all_holds skipped]. rewrite ie_skip.
    destruct (skip_all_holds tr); [reflexivity|]. destruct (skipped tr); reflexivity.
  Qed.
  Lemma effect_fn tr c s : in_effect f tr c -> in_effect f (SFn s :: tr) (update_fn_info c (FnInfo s)).
  Proof. intros []. constructor; try assumption; reflexivity. Qed.
  Lemma effect_closure tr c a hd out : in_effect f tr c -> in_effect f (SClosure a hd out :: tr) (closure_ctx (foreign a) hd out c).
  Proof.
    intros []. constructor; try assumption; try reflexivity.
    unfold closure_ctx, update_fn_info. cbn [cx_fn from_parent fval closure_info_new fn_info_name fn_name]. rewrite ie_nearest. reflexivity.
  Qed.
  Lemma effect_macro tr c : in_effect f tr c -> in_effect f (SMacro :: tr) c.
  Proof. intros []. constructor; assumption. Qed.

  Lemma at_trail fr c : ctx_at E c0 fr c -> exists tr, trail env fr tr /\ reached f tr = true /\ in_effect f tr c.
  Proof.
    induction 1 as [|l fr c k s c' H IH Hh|fr c H IH|s fr c H IH|a hd out fr c H IH|fr c H IH Hm].
    - exists []. repeat split; [constructor|apply effect_root..].
    - destruct IH as (tr & Ht & Hr & He). unfold handle_inert_attrs in Hh. apply bindR_Ok in Hh. destruct Hh as ([i k2] & Hx & Hh). inversion Hh; subst.
      apply extract_ok in Hx. destruct Hx as (es & Hne & Hsb & _ & Hnd). exists (SNode es :: tr). split; [constructor; [constructor; exact Hne|exact Ht]|].
      split; [exact Hr|]. apply effect_node; assumption.
    - destruct IH as (tr & Ht & Hr & He). exists (SScope :: tr). split; [constructor; [constructor|exact Ht]|]. split; [exact Hr|apply effect_scope, He].
    - destruct IH as (tr & Ht & Hr & He). exists (SFn s :: tr). split; [constructor; [constructor|exact Ht]|]. split; [exact Hr|apply effect_fn, He].
    - destruct IH as (tr & Ht & Hr & He). exists (SClosure a hd out :: tr). split; [constructor; [constructor|exact Ht]|]. split; [exact Hr|apply effect_closure, He].
    - destruct IH as (tr & Ht & Hr & He). exists (SMacro :: tr). split; [constructor; [constructor|exact Ht]|]. split; [|apply effect_macro, He].
      cbn [reached]. rewrite Hr, andb_true_r, <- (ie_macros _ _ _ He). exact Hm.
  Qed.
  Lemma blocked_unreached fr : blocked E c0 fr -> unreached env f fr.
  Proof.
    induction 1 as [fr|fr c H Hm|x fr H [IH|(pre & post & tr & -> & Ht & Hm)]].
    - left. left. reflexivity.
    - right. apply at_trail in H. destruct H as (tr & Ht & _ & He). exists [], fr, tr. split; [reflexivity|]. split; [exact Ht|].
      rewrite <- (ie_macros _ _ _ He). exact Hm.
    - left. right. exact IH.
    - right. exists (x :: pre), post, tr. auto.
  Qed.
  Lemma unreached_not fr tr : unreached env f fr -> trail env fr tr -> reached f tr = false.
  Proof.
    intros [H|(pre & post & tr2 & -> & Ht2 & Hm)] Ht.
    - revert tr Ht. induction fr as [|x fr IH]; [destruct H|]. intros tr Ht. inversion Ht as [|? y ? tr' Hs Ht']; subst.
      destruct H as [->|H]; [inversion Hs; reflexivity|]. specialize (IH H _ Ht'). inversion Hs; subst; cbn [reached]; rewrite ?IH, ?andb_false_r; reflexivity.
    - revert tr Ht. induction pre as [|x pre IH]; intros tr Ht; cbn [app] in Ht; inversion Ht as [|? y ? tr' Hs Ht']; subst.
      + inversion Hs; subst. cbn [reached]. rewrite (trail_unique _ _ _ Ht' Ht2), Hm. reflexivity.
      + specialize (IH _ Ht'). inversion Hs; subst; cbn [reached]; rewrite ?IH, ?andb_false_r; reflexivity.
  Qed.
  (** a context for a position whose attributes are readable *)
  Lemma trail_at fr : forall tr, trail env fr tr -> reached f tr = true -> exists c, ctx_at E c0 fr c /\ in_effect f tr c.
  Proof.
    induction fr as [|x fr IH]; intros tr Ht Hr; inversion Ht as [|? y ? tr' Hs Ht']; subst.
    - exists c0. split; [constructor|apply effect_root].
    - inversion Hs; subst; cbn [reached] in Hr; try discriminate.
      + destruct (IH _ Ht' Hr) as (c & Hc & He). destruct (extract_total _ _ _ H) as (i & Hx & Hsb). 
        pose proof (extract_ok _ _ _ _ Hx) as (es' & Hne & Hsb' & Hk & Hnd). eexists. split.
        * eapply at_attrs; [exact Hc|]. unfold handle_inert_attrs. rewrite Hx. reflexivity.
        * apply effect_node; assumption.
      + destruct (IH _ Ht' Hr) as (c & Hc & He). eexists. split; [apply at_scope, Hc|apply effect_scope, He].
      + destruct (IH _ Ht' Hr) as (c & Hc & He). eexists. split; [apply at_fn, Hc|apply effect_fn, He].
      + destruct (IH _ Ht' Hr) as (c & Hc & He). eexists. split; [apply at_closure, Hc|apply effect_closure, He].
      + apply andb_true_iff in Hr. destruct Hr as [Hm Hr]. destruct (IH _ Ht' Hr) as (c & Hc & He). exists c. split; [|apply effect_macro, He].
        apply at_macro; [exact Hc|]. unfold hook_in_macros. rewrite (ie_macros _ _ _ He). exact Hm.
  Qed.
End Settings.
