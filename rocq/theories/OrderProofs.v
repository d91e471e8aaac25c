(** Attributes that say the same.  *)
From Coq Require Import String Ascii Bool Arith Lia Permutation List.
From Verif Require Import Base Tokens Method Paths Context Flavor Attrs Syntax SyntaxInd Render Walker RootAttr MapFacts RenderSpec RenderProofs FlavorSpec AttrSpec AttrProofs SiteSpec ProgSpec WalkFacts SettingSpec WalkSpec AlikeSpec AlikeProofs ShiftSpec ShiftProofs RewriteSpec.
Import ListNotations.
Open Scope string_scope.
Open Scope list_scope.
Open Scope monad_scope.

Notation unless P := (Forall (fun e => P e = false)).
Lemma single {A} (P : A -> bool) es : ForallOrdPairs (fun e e' => P e && P e' = false) es ->
  unless P es \/ exists e a b, es = a ++ e :: b /\ P e = true /\ unless P a /\ unless P b.
Proof.
  induction 1 as [|e es He Hes IH]; [left; constructor|]. destruct (P e) eqn:Pe.
  - right. exists e, [], es. repeat split; [exact Pe|constructor|]. eapply Forall_impl; [|exact He]. intros x Hx. exact Hx.
  - destruct IH as [IH|(x & a & b & -> & Hx & Ha & Hb)]; [left; constructor; assumption|]. right. exists x, (e :: a), b. repeat split; try assumption. constructor; assumption.
Qed.
Lemma unless_perm {A} (P : A -> bool) l l' : Permutation l l' -> unless P l -> unless P l'.
Proof. rewrite !Forall_forall. intros H HF x Hx. apply HF, (Permutation_in _ (Permutation_sym H)), Hx. Qed.
Lemma both_single {A} (P : A -> bool) es es' : Permutation es es' -> ForallOrdPairs (fun e e' => P e && P e' = false) es ->
  (unless P es /\ unless P es') \/
  exists e a b a' b', es = a ++ e :: b /\ es' = a' ++ e :: b' /\ P e = true /\ unless P a /\ unless P b /\ unless P a' /\ unless P b'.
Proof.
  intros H HP. destruct (single P es HP) as [Hn|(e & a & b & -> & He & Ha & Hb)]; [left; split; [exact Hn|eapply unless_perm; eassumption]|]. right.
  assert (Hin : In e es') by (apply (Permutation_in _ H), in_elt). apply in_split in Hin. destruct Hin as (a' & b' & ->). apply Permutation_app_inv in H.
  assert (Hall : unless P (a' ++ b')) by (eapply unless_perm; [exact H|]; apply Forall_app; split; assumption). apply Forall_app in Hall. destruct Hall.
  exists e, a, b, a', b'. repeat split; assumption.
Qed.
Lemma exists_perm {A} (g : A -> bool) l l' : Permutation l l' -> existsb g l = existsb g l'.
Proof. induction 1 as [|x l l' H IH|x y l|l1 l2 l3 H1 IH1 H2 IH2]; cbn [existsb]; [reflexivity|congruence|destruct (g x), (g y); reflexivity|congruence]. Qed.
Section Perm.
  Variables es es' : list event.
  Hypothesis HP : Permutation es es'.
  Lemma says_true {A} (g : event -> option A) e : says g e = false -> g e = None.
  Proof. unfold says. destruct (g e); [discriminate|reflexivity]. Qed.
  Lemma last_single {A} (g : event -> option A) a e b : says g e = true -> unless (says g) b -> last_of g (a ++ e :: b) = g e.
  Proof.
    intros He Hb. rewrite last_of_app. unfold last_of at 1. cbn [map last_some]. fold (last_of g b).
    rewrite (none_last g b) by (eapply Forall_impl; [|exact Hb]; intros x; apply says_true). unfold says in He. destruct (g e); [reflexivity|discriminate].
  Qed.
  Lemma perm_last {A} (g : event -> option A) : ForallOrdPairs (fun e e' => says g e && says g e' = false) es -> last_of g es = last_of g es'.
  Proof.
    intros H. destruct (both_single _ _ _ HP H) as [[H1 H2]|(e & a & b & a' & b' & -> & -> & He & Ha & Hb & Ha' & Hb')].
    - rewrite !none_last; [reflexivity| |]; (eapply Forall_impl; [intros x; apply says_true|eassumption]).
    - rewrite !last_single by assumption. reflexivity.
  Qed.
  Lemma quiet_ignores l : unless says_ignores l -> node_ignores l = None.
  Proof.
    intros H. pose proof (ignores_app l [] (or_introl H)) as G. rewrite app_nil_r in G. cbn in G. clear G. unfold node_ignores. unfold says_ignores in H. apply split_or in H. destruct H as [H1 H2].
    assert (Hn : last_some (map ev_assigned l) = None).
    { apply (none_last ev_assigned). eapply Forall_impl; [|exact H2]. intros e He. cbv beta in He. destruct (ev_assigned e); [discriminate|reflexivity]. }
    rewrite Hn, (after_none l Hn), (false_exists _ l H1). reflexivity.
  Qed.
  Lemma single_ignores a e b : unless says_ignores a -> unless says_ignores b -> node_ignores (a ++ e :: b) = node_ignores [e].
  Proof.
    intros Ha Hb. rewrite ignores_app by (left; exact Ha). rewrite (quiet_ignores a Ha). change (e :: b) with ([e] ++ b).
    rewrite ignores_app by (right; unfold says_ignores in Hb; apply split_or in Hb; apply Hb). rewrite (quiet_ignores b Hb). destruct (node_ignores [e]); reflexivity.
  Qed.
  Lemma perm_ignores : ForallOrdPairs (fun e e' => says_ignores e && says_ignores e' = false) es -> node_ignores es = node_ignores es'.
  Proof.
    intros H. destruct (both_single _ _ _ HP H) as [[H1 H2]|(e & a & b & a' & b' & -> & -> & He & Ha & Hb & Ha' & Hb')]; [rewrite !quiet_ignores by assumption; reflexivity|].
    rewrite !single_ignores by assumption. reflexivity.
  Qed.
  Lemma unbound k l : unless (binds k) l -> last_get k (flat_map ev_binds l) = None.
  Proof.
    induction 1 as [|e l He Hl IH]; [reflexivity|]. cbn [flat_map]. rewrite last_get_app, IH. unfold binds in He. apply last_get_none. intros Hin.
    assert (X : existsb (String.eqb k) (keys (ev_binds e)) = true) by (apply existsb_exists; exists k; split; [exact Hin|apply String.eqb_refl]). congruence.
  Qed.
  Lemma perm_binds k : ForallOrdPairs (fun e e' => binds k e && binds k e' = false) es -> last_get k (flat_map ev_binds es) = last_get k (flat_map ev_binds es').
  Proof.
    intros H. destruct (both_single _ _ _ HP H) as [[H1 H2]|(e & a & b & a' & b' & -> & -> & He & Ha & Hb & Ha' & Hb')]; [rewrite !unbound by assumption; reflexivity|].
    rewrite !flat_map_app. cbn [flat_map]. rewrite !last_get_app, !unbound by assumption. reflexivity.
  Qed.
  Lemma perm_exists (g : event -> bool) : existsb g es = existsb g es'.
  Proof. exact (exists_perm g es es' HP). Qed.
  Lemma pairs_impl {A} (R Q : A -> A -> Prop) l : (forall x y, R x y -> Q x y) -> ForallOrdPairs R l -> ForallOrdPairs Q l.
  Proof. intros H. induction 1; constructor; [eapply Forall_impl; [|eassumption]; intros; apply H; assumption|assumption]. Qed.
  Hypothesis HF : ForallOrdPairs free es.
  Lemma both_false (b c : bool) : ~ (b = true /\ c = true) -> b && c = false.
  Proof. destruct b, c; tauto. Qed.
  Lemma exists_or (g h : event -> bool) l : existsb (fun e => g e || h e) l = existsb g l || existsb h l.
  Proof. induction l as [|e l IH]; [reflexivity|]. cbn [existsb]. rewrite IH. destruct (g e), (h e), (existsb g l); reflexivity. Qed.
  Lemma perm_settings : same_settings es es'.
  Proof.
    constructor; try apply perm_exists.
    - apply perm_last. eapply pairs_impl; [|exact HF]. intros x y H. apply both_false, (fr_method _ _ H).
    - apply perm_last. eapply pairs_impl; [|exact HF]. intros x y H. apply both_false, (fr_targets _ _ H).
    - apply perm_last. eapply pairs_impl; [|exact HF]. intros x y H. apply both_false, (fr_tails _ _ H).
    - apply perm_ignores. eapply pairs_impl; [|exact HF]. intros x y H. apply both_false, (fr_ignores _ _ H).
    - apply perm_last. eapply pairs_impl; [|exact HF]. intros x y H. apply both_false, (fr_results _ _ H).
    - apply perm_last. eapply pairs_impl; [|exact HF]. intros x y H. apply both_false, (fr_macros _ _ H).
    - intros k. apply perm_binds. eapply pairs_impl; [|exact HF]. intros x y H. apply both_false, (fr_binds _ _ H).
  Qed.
End Perm.

Lemma shuffle_meaning env a a' : shuffle env a a' -> same_meaning env a a'.
Proof. intros (Hf & es & es' & H1 & H2 & HP & HF). split; [exact Hf|]. exists es, es'. repeat split; try assumption; apply (perm_settings es es' HP HF). Qed.
Lemma settings_sym es es' : same_settings es es' -> same_settings es' es.
Proof. intros []. constructor; congruence. Qed.
Lemma meaning_sym env a a' : same_meaning env a a' -> same_meaning env a' a.
Proof. intros (Hf & es & es' & H1 & H2 & H). split; [symmetry; exact Hf|]. exists es', es. repeat split; try assumption; apply (settings_sym _ _ H). Qed.
Section Same.
  Variables es es' : list event.
  Hypothesis HS : same_settings es es'.
  Lemma same_skip : in_skip (after es') || in_skip_all (after es') = in_skip (after es) || in_skip_all (after es).
  Proof.
    pose proof (apply_set es) as S1. pose proof (apply_set es') as S2. rewrite (sb_skip _ _ S1), (sb_skip _ _ S2), (sb_skip_all _ _ S1), (sb_skip_all _ _ S2), <- !exists_or. symmetry. apply (sm_skip _ _ HS).
  Qed.
  Lemma same_status : get_skip_status (after es') = get_skip_status (after es).
  Proof.
    pose proof same_skip as H. unfold get_skip_status. pose proof (apply_set es) as S1. pose proof (apply_set es') as S2.
    rewrite (sb_skip_all _ _ S1), (sb_skip_all _ _ S2), (sm_skip_all _ _ HS) in *. destruct (existsb is_skip_all es'); [reflexivity|]. rewrite !orb_false_r in H. rewrite H. reflexivity.
  Qed.
  Lemma same_more c : NoDup (keys (fval (cx_bindings c))) -> more (updated_by_inert_attr c (after es)) (updated_by_inert_attr c (after es')).
  Proof.
    intros HN. pose proof (apply_set es) as S1. pose proof (apply_set es') as S2.
    constructor; cbn [updated_by_inert_attr cx_method cx_targets cx_tails cx_ignores cx_results cx_macros cx_bindings cx_skip cx_fn]; try reflexivity.
    - exists []. rewrite app_nil_r, (sb_method _ _ S1), (sb_method _ _ S2), (sm_method _ _ HS). reflexivity.
    - rewrite (sb_targets _ _ S1), (sb_targets _ _ S2), (sm_targets _ _ HS). reflexivity.
    - rewrite (sb_tails _ _ S1), (sb_tails _ _ S2), (sm_tails _ _ HS). reflexivity.
    - rewrite (sb_ignores _ _ S1), (sb_ignores _ _ S2), (sm_ignores _ _ HS). reflexivity.
    - rewrite (sb_results _ _ S1), (sb_results _ _ S2), (sm_results _ _ HS). reflexivity.
    - rewrite (sb_macros _ _ S1), (sb_macros _ _ S2), (sm_macros _ _ HS). reflexivity.
    - intros k. rewrite !merged_val, !after_get, (sm_binds _ _ HS). reflexivity.
    - apply merged_nodup, HN.
    - apply merged_nodup, HN.
    - rewrite same_status. reflexivity.
  Qed.
End Same.

(** * Walking *)
Section Order.
  Variable E : env.
  Definition node_pair (a a' : list attr) (c c' : ctx) : Prop :=
    forall B (Q : B -> B -> Prop) f1 f2, (forall x s y y', more y y' -> follows Q (f1 (x, s, y)) (f2 (x, s, y'))) -> follows Q (bind (handle E a c) f1) (bind (handle E a' c') f2).
  Lemma pair_same a c c' : more c c' -> node_pair a a c c'.
  Proof. intros HC B Q f1 f2 H. apply fo_handle; assumption. Qed.
  Lemma pair_meaning a a' c c' : more c c' -> same_meaning (ev_attr E) a a' -> node_pair a a' c c'.
  Proof.
    intros HC (Hf & es & es' & H1 & H2 & HS) B Q f1 f2 H n b k. unfold bind, handle, lift. rewrite (handle_after _ _ _ _ H1), (handle_after _ _ _ _ H2), <- Hf.
    rewrite (same_skip es es' HS), (more_skipped _ _ HC). apply H. eapply more_trans; [apply more_updated, HC|]. apply same_more; [exact HS|apply (mo_nodup' _ _ HC)].
  Qed.
  Notation R := (same_meaning (ev_attr E)).
  Lemma pair_like a a' c c' : more c c' -> like R a a' -> node_pair a a' c c'.
  Proof. intros HC [->|H]; [apply pair_same|apply pair_meaning]; assumption. Qed.
  Ltac mores := repeat first [assumption | apply more_scope | apply more_fn].
  Ltac each W := apply Forall_forall; intros ? _; apply W; mores.
  Ltac alls :=
    pose proof (proj1 (walk_more E)) as We; pose proof (proj1 (proj2 (walk_more E))) as Ws; pose proof (proj1 (proj2 (proj2 (walk_more E)))) as Wi;
    pose proof (proj1 (proj2 (proj2 (proj2 (walk_more E))))) as Wm; pose proof (proj1 (proj2 (proj2 (proj2 (proj2 (walk_more E)))))) as Wt;
    pose proof (proj1 (proj2 (proj2 (proj2 (proj2 (proj2 (walk_more E))))))) as Wa; pose proof (proj1 (proj2 (proj2 (proj2 (proj2 (proj2 (proj2 (walk_more E)))))))) as Wf;
    pose proof (proj1 (proj2 (proj2 (proj2 (proj2 (proj2 (proj2 (proj2 (walk_more E))))))))) as Wc.
  Ltac wstep := match goal with
    | We : forall x, L_expr E x, Ws : forall x, L_stmt E x, Wi : forall x, L_item E x, Wm : forall x, L_impl E x, Wt : forall x, L_trait E x, Wa : forall x, L_arm E x, Wf : forall x, L_field E x, Wc : forall x, L_mac E x |- _ =>
      match goal with
      | |- follows _ (walk_expr _ _ _ _) _ => apply We; mores
      | |- follows _ (walk_mac _ _ _) _ => apply Wc; mores
      | |- follows _ (optM (walk_expr _ _ _) ?o) _ => apply (fo_opt prints); destruct o; cbn [optP]; [apply We; mores|exact I]
      | |- follows _ (mapiM _ 0 _) _ => apply fo_stmts; [mores|apply Forall_forall; intros; apply Ws]
      | |- follows _ (mapM (walk_expr _ _ _) _) _ => apply (fo_map prints); each We
      | |- follows _ (mapM (walk_arm _ _) _) _ => apply (fo_map (alike_in armtoks)); each Wa
      | |- follows _ (mapM (walk_field _ _) _) _ => apply (fo_map (alike_in fieldtoks)); each Wf
      | |- follows _ (mapM (walk_item _ _) _) _ => apply (fo_map (alike_in itoks)); each Wi
      end
    end.
  Ltac lgo := repeat match goal with
    | |- follows _ (bind _ _) _ => eapply fo_bind; [wstep|intros; cbv beta iota]
    | |- follows _ (ret _) _ => apply fo_ret
    end.
  Ltac tcbn := cbn [opt_toks etoks stoks itoks iitoks titoks armtoks fieldtoks vtoks]; try fold etoks; try fold stoks; try fold itoks; try fold iitoks; try fold titoks; try fold armtoks; try fold fieldtoks.
  Ltac opened :=
    repeat match goal with
    | H : prints _ _ |- _ => let h1 := fresh "Ht" in let h2 := fresh "Hs" in destruct H as (h1 & h2)
    | H : Forall2 prints _ _ |- _ => apply prints_map in H
    | H : Forall2 (alike_in fieldtoks) _ _ |- _ => apply in_map_toks in H
    | H : Forall2 (alike_in _) _ _ |- _ => apply in_flat in H
    | H : both prints _ _ |- _ => apply opt_prints in H
    end.
  Ltac lfin := opened; repeat split; unfold alike_in in *; [tcbn; congruence | try reflexivity ..].
  Lemma expr_order a a' e c c' : takes e = true -> get_attrs e = Some a -> more c c' -> node_pair a a' c c' -> follows prints (walk_expr E None c e) (walk_expr E None c' (set_attrs a' e)).
  Proof.
    intros Ht Ha HC HP. alls.
    destruct e; cbn [takes] in Ht; try discriminate Ht; cbn [get_attrs] in Ha; injection Ha as <-; cbn [set_attrs walk_expr attrs_now];
      fold (walk_expr E); fold (walk_stmt E); fold (walk_arm E); fold (walk_field E); fold (walk_mac E); apply HP; intros kept sk z z' HZ; cbv beta iota.
    all: try solve [lgo; lfin].
    - (* call *)
      lgo. opened. split; [tcbn; congruence|].
      match goal with Hs : shape_of ?x = shape_of ?y |- _ => clear - Hs; unfold shape_of in *; cbn [seen]; destruct (seen x), (seen y); try discriminate; try reflexivity;
        repeat match type of Hs with context[match seen ?f with _ => _ end] => destruct (seen f); try discriminate; try reflexivity end; congruence end.
    - (* closure *)
      rewrite (mo_fn _ _ HZ). eapply (fo_bind prints).
      + destruct e; try (apply fo_tail; [mores|apply We]). apply fo_handle; [mores|]. intros ? ? ? ? ?. lgo. lfin.
      + intros u v Huv. apply fo_ret. lfin.
    - (* return *)
      destruct e as [e0|]; [|apply fo_ret; split; reflexivity].
      eapply fo_bind; [wstep|]. intros u v Huv. rewrite (more_check _ _ HZ), (more_result _ _ HZ), (shape_check z u v) by apply Huv. destruct (target_call_check z v) as [t nt].
      destruct (_ || _).
      + eapply fo_bind; [apply fo_hook; assumption|]. intros [u' ?] [v' ?] [Hf _]. cbn [fst] in Hf. apply fo_ret. lfin.
      + apply fo_ret. lfin.
    - (* try *)
      eapply fo_bind; [wstep|]. intros u v Huv. eapply fo_bind; [apply fo_hook; assumption|].
      intros [u' ?] [v' exc] [Hf Hf2]. cbn [fst snd] in *. subst. apply fo_ret. destruct exc; [|lfin].
      destruct Hf as (H1 & H2). split; [destruct u', v'; exact H1|destruct u', v'; exact H2].
  Qed.
  Lemma walk_over x c e a : walk_expr E (Some x) c (set_attrs a e) = walk_expr E (Some x) c e.
  Proof. destruct e; reflexivity. Qed.
  Lemma set_set x a e : set_attrs x (set_attrs a e) = set_attrs x e.
  Proof. destruct e; reflexivity. Qed.
  Lemma get_set a a' e : get_attrs e = Some a -> get_attrs (set_attrs a' e) = Some a'.
  Proof. destruct e; cbn; intros H; try discriminate; reflexivity. Qed.
  Lemma tail_order a a' e c c' tk : get_attrs e = Some a -> more c c' -> node_pair a a' c c' ->
    follows prints (handle_tail_with E (fun ov c' => walk_expr E ov c' e) e c tk) (handle_tail_with E (fun ov c' => walk_expr E ov c' (set_attrs a' e)) (set_attrs a' e) c' tk).
  Proof.
    intros Ha HC HP. unfold handle_tail_with. rewrite Ha, (get_set _ a' _ Ha). apply HP. intros x s y y' HY. rewrite walk_over, set_set.
    eapply fo_bind; [apply (proj1 (walk_more E)), HY|]. intros u v Huv. destruct (negb (is_target tk)); [apply fo_ret, Huv|].
    rewrite (more_check _ _ HY), (more_result _ _ HY), (shape_check y u v) by apply Huv. destruct (target_call_check y v) as [t nt]. destruct (_ || _); [|apply fo_ret, Huv].
    rewrite (proj1 Huv). eapply fo_bind; [apply fo_hook; assumption|]. intros [x1 ?] [y1 ?] [H1 H2]. apply fo_ret. exact H1.
  Qed.
  (** ** Rewritten programs *)
  Lemma own_walk e e' c c' : more c c' -> own_expr R e e' -> follows prints (walk_expr E None c e) (walk_expr E None c' e').
  Proof. intros HC [e0|a a' e0 Ht Ha H]; [apply (proj1 (walk_more E)), HC|]. eapply expr_order; try eassumption. apply pair_meaning; assumption. Qed.
  Lemma own_tail e e' c c' tk : more c c' -> own_expr R e e' ->
    follows prints (handle_tail_with E (fun ov c' => walk_expr E ov c' e) e c tk) (handle_tail_with E (fun ov c' => walk_expr E ov c' e') e' c' tk).
  Proof. intros HC [e0|a a' e0 Ht Ha H]; [apply fo_tail; [exact HC|apply (proj1 (walk_more E))]|]. eapply tail_order; try eassumption. apply pair_meaning; assumption. Qed.
  Definition W_expr (e e' : expr) : Prop := forall c c', more c c' -> follows prints (walk_expr E None c e) (walk_expr E None c' e').
  Definition W_exprs (l l' : list expr) : Prop := forall c c', more c c' -> follows (Forall2 prints) (mapM (walk_expr E None c) l) (mapM (walk_expr E None c') l').
  Definition W_opt (o o' : option expr) : Prop := forall c c', more c c' -> follows (both prints) (optM (walk_expr E None c) o) (optM (walk_expr E None c') o').
  Definition W_body (b b' : list stmt) : Prop := forall tk c c', more c c' -> forall n i, n = i + length b ->
    follows (Forall2 (alike_in stoks)) (mapiM (fun j s => walk_stmt E (pos_kind tk n j) c s) i b) (mapiM (fun j s => walk_stmt E (pos_kind tk n j) c' s) i b').
  Definition W_stmt (s s' : stmt) : Prop := forall tk c c', more c c' -> (forall e, s = SExpr e None -> is_target tk = false) -> follows (alike_in stoks) (walk_stmt E tk c s) (walk_stmt E tk c' s').
  Definition W_arm (x x' : arm) : Prop := forall c c', more c c' -> follows (alike_in armtoks) (walk_arm E c x) (walk_arm E c' x').
  Definition W_arms (l l' : list arm) : Prop := forall c c', more c c' -> follows (Forall2 (alike_in armtoks)) (mapM (walk_arm E c) l) (mapM (walk_arm E c') l').
  Definition W_fields (l l' : list fieldv) : Prop := forall c c', more c c' -> follows (Forall2 (alike_in fieldtoks)) (mapM (walk_field E c) l) (mapM (walk_field E c') l').
  Definition W_item (i i' : item) : Prop := forall c c', more c c' -> follows (alike_in itoks) (walk_item E c i) (walk_item E c' i').
  Definition W_items (l l' : list item) : Prop := forall c c', more c c' -> follows (Forall2 (alike_in itoks)) (mapM (walk_item E c) l) (mapM (walk_item E c') l').
  Definition W_impls (l l' : list impl_item) : Prop := forall c c', more c c' -> follows (Forall2 (alike_in iitoks)) (mapM (walk_impl_item E c) l) (mapM (walk_impl_item E c') l').
  Definition W_traits (l l' : list trait_item) : Prop := forall c c', more c c' -> follows (Forall2 (alike_in titoks)) (mapM (walk_trait_item E c) l) (mapM (walk_trait_item E c') l').
  Scheme rw_expr_m := Minimality for rw_expr Sort Prop with rw_exprs_m := Minimality for rw_exprs Sort Prop with rw_opt_m := Minimality for rw_opt Sort Prop
    with rw_body_m := Minimality for rw_body Sort Prop with rw_stmt_m := Minimality for rw_stmt Sort Prop with rw_arm_m := Minimality for rw_arm Sort Prop
    with rw_arms_m := Minimality for rw_arms Sort Prop with rw_fields_m := Minimality for rw_fields Sort Prop with rw_item_m := Minimality for rw_item Sort Prop
    with rw_items_m := Minimality for rw_items Sort Prop with rw_impls_m := Minimality for rw_impls Sort Prop with rw_traits_m := Minimality for rw_traits Sort Prop.
  Lemma body_length R0 b b' : rw_body R0 b b' -> length b = length b'.
  Proof.
    revert b'. induction b as [|s b IH]; intros b' H; inversion H; subst; try reflexivity. cbn [length]. f_equal. match goal with H : rw_body _ (_ :: _) (?t :: ?l) |- _ => apply (IH (t :: l)) end. assumption.
  Qed.
  Lemma pos_last tk n i : n = i + 1 -> pos_kind tk n i = tk.
  Proof. intros ->. unfold pos_kind. replace (i + 1 - 1) with i by lia. rewrite Nat.eqb_refl. reflexivity. Qed.
  Lemma pos_before tk n i m : n = i + S (S m) -> pos_kind tk n i = NotTarget.
  Proof. intros ->. unfold pos_kind. destruct (Nat.eqb_spec i (i + S (S m) - 1)); [lia|reflexivity]. Qed.
  Ltac wcbn :=
    cbn [walk_expr attrs_now walk_stmt walk_item walk_impl_item walk_trait_item walk_arm walk_field mapM];
    try fold (walk_expr E); try fold (walk_stmt E); try fold (walk_item E); try fold (walk_impl_item E);
    try fold (walk_trait_item E); try fold (walk_arm E); try fold (walk_field E); try fold (walk_mac E).
  Ltac rstep := match goal with
    | H : W_expr ?e ?e' |- follows _ (walk_expr _ _ _ ?e) (walk_expr _ _ _ ?e') => apply H; mores
    | H : W_exprs ?e ?e' |- follows _ (mapM _ ?e) (mapM _ ?e') => apply H; mores
    | H : W_opt ?e ?e' |- follows _ (optM _ ?e) (optM _ ?e') => apply H; mores
    | H : W_body ?b ?b', Hr : rw_body _ ?b ?b' |- follows _ (mapiM _ 0 ?b) (mapiM _ 0 ?b') => rewrite <- (body_length _ _ _ Hr); apply H; [mores|reflexivity]
    | H : W_arms ?e ?e' |- follows _ (mapM _ ?e) (mapM _ ?e') => apply H; mores
    | H : W_fields ?e ?e' |- follows _ (mapM _ ?e) (mapM _ ?e') => apply H; mores
    | H : W_item ?e ?e' |- follows _ (walk_item _ _ ?e) (walk_item _ _ ?e') => apply H; mores
    | H : W_items ?e ?e' |- follows _ (mapM _ ?e) (mapM _ ?e') => apply H; mores
    | H : W_impls ?e ?e' |- follows _ (mapM _ ?e) (mapM _ ?e') => apply H; mores
    | H : W_traits ?e ?e' |- follows _ (mapM _ ?e) (mapM _ ?e') => apply H; mores
    | |- follows _ (walk_mac _ _ _) _ => apply (proj1 (proj2 (proj2 (proj2 (proj2 (proj2 (proj2 (proj2 (walk_more E))))))))); mores
    end.
  Ltac rgo := repeat match goal with
    | Hl : like _ ?a ?a' |- follows _ (bind (handle _ ?a _) _) (bind (handle _ ?a' _) _) => apply (pair_like a a'); [mores|exact Hl|intros ? ? ? ? ?; cbv beta iota]
    | |- follows _ (bind _ _) _ => eapply fo_bind; [rstep|intros; cbv beta iota]
    | |- follows _ (ret _) _ => apply fo_ret
    end.
  Lemma fo_cons {A} (Q : A -> A -> Prop) m m' ms ms' : follows Q m m' -> follows (Forall2 Q) ms ms' ->
    follows (Forall2 Q) (bind m (fun y => bind ms (fun ys => ret (y :: ys)))) (bind m' (fun y => bind ms' (fun ys => ret (y :: ys)))).
  Proof. intros H HS. eapply fo_bind; [exact H|]. intros a b Hab. eapply fo_bind; [exact HS|]. intros l l' Hl. apply fo_ret. constructor; assumption. Qed.
  Lemma closure_body e e' c c' : more c c' -> own_expr R e e' ->
    follows prints
      (match e with
       | EBlock ba lbl bsp b => bind (handle E ba c) (fun '(ba', _, c3) => bind (mapiM (fun i s => walk_stmt E (pos_kind FnBlockTail (length b) i) (for_sub_scope c3) s) 0 b) (fun b' => ret (EBlock ba' lbl bsp b')))
       | _ => handle_tail_with E (fun ov' c' => walk_expr E ov' c' e) e c FnBlockTail
       end)
      (match e' with
       | EBlock ba lbl bsp b => bind (handle E ba c') (fun '(ba', _, c3) => bind (mapiM (fun i s => walk_stmt E (pos_kind FnBlockTail (length b) i) (for_sub_scope c3) s) 0 b) (fun b' => ret (EBlock ba' lbl bsp b')))
       | _ => handle_tail_with E (fun ov' c' => walk_expr E ov' c' e') e' c' FnBlockTail
       end).
  Proof.
    intros HC H. alls. assert (G : match e with EBlock _ _ _ _ => True | _ => follows prints (handle_tail_with E (fun ov' c' => walk_expr E ov' c' e) e c FnBlockTail) (handle_tail_with E (fun ov' c' => walk_expr E ov' c' e') e' c' FnBlockTail) end)
      by (destruct e; try exact I; apply own_tail; assumption).
    destruct H as [e0|a a' e0 Ht Ha H]; destruct e0; try exact G; clear G.
    - apply fo_handle; [exact HC|]. intros ? ? ? ? ?. eapply fo_bind; [apply fo_stmts; [mores|apply Forall_forall; intros; apply Ws]|]. intros. apply fo_ret. lfin.
    - cbn in Ha. injection Ha as ->. cbn [set_attrs]. apply pair_meaning; [exact HC|exact H|]. intros ? ? ? ? ?. cbv beta iota.
      eapply fo_bind; [apply fo_stmts; [mores|apply Forall_forall; intros; apply Ws]|]. intros. apply fo_ret. lfin.
  Qed.
  Lemma arm_body e e' c c' : more c c' -> own_expr R e e' ->
    follows prints
      (match e with EBlock _ _ _ _ => walk_expr E None c e | _ => handle_tail_with E (fun ov' c' => walk_expr E ov' c' e) e c BlockTail end)
      (match e' with EBlock _ _ _ _ => walk_expr E None c' e' | _ => handle_tail_with E (fun ov' c' => walk_expr E ov' c' e') e' c' BlockTail end).
  Proof.
    intros HC H. pose proof (own_walk _ _ _ _ HC H) as G. assert (G2 := own_tail _ _ _ _ BlockTail HC H).
    destruct H as [e0|a a' e0 Ht Ha H]; destruct e0; first [exact G|exact G2].
  Qed.
  Lemma rewrite_walk : forall i i', rw_item R i i' -> W_item i i'.
  Proof.
    apply (rw_item_m R W_expr W_exprs W_opt W_body W_stmt W_arm W_arms W_fields W_item W_items W_impls W_traits); intros.
    all: match goal with
         | |- W_stmt _ _ => intros tk c c' HC Htk
         | |- W_body _ _ => idtac
         | _ => intros c c' HC
         end; wcbn.
    all: try solve [rgo; lfin].
    all: try solve [apply fo_ret; constructor].
    all: try solve [apply fo_cons; [first [rstep | match goal with H : W_arm _ _ |- _ => apply H; mores end | rgo; lfin | apply fo_ret; reflexivity]|rstep]].
    all: try solve [apply fo_cons; [|rstep]; rgo; unfold alike_in in *; match goal with H : mtoks ?x = mtoks ?y |- _ => destruct x, y; cbn [iitoks titoks mtoks] in *; congruence end].
    - (* own *) apply own_walk; assumption.
    - (* call *)
      rgo. opened. split; [tcbn; congruence|].
      match goal with Hs : shape_of ?x = shape_of ?y |- _ => clear - Hs; unfold shape_of in *; cbn [seen]; destruct (seen x), (seen y); try discriminate; try reflexivity;
        repeat match type of Hs with context[match seen ?f with _ => _ end] => destruct (seen f); try discriminate; try reflexivity end; congruence end.
    - (* closure *)
      apply (pair_like a a'); [mores|assumption|]. intros kept sk z z' HZ. cbv beta iota. rewrite (mo_fn _ _ HZ). eapply fo_bind; [apply closure_body; [mores|assumption]|]. intros u v Huv. apply fo_ret. lfin.
    - (* closure with a block *)
      apply (pair_like a a'); [mores|assumption|]. intros kept sk z z' HZ. cbv beta iota. rewrite (mo_fn _ _ HZ). eapply (fo_bind prints); [rgo; lfin|]. intros u v Huv. apply fo_ret. lfin.
    - (* some *) cbn [optM]. eapply fo_bind; [rstep|]. intros. apply fo_ret. assumption.
    - (* no statement *) intros tk c c' HC n i Hn. apply fo_ret. constructor.
    - (* tail *)
      intros tk c c' HC n i Hn. cbn [mapiM]. rewrite (pos_last tk n i Hn). apply fo_cons; [|apply fo_ret; constructor]. cbn [walk_stmt]. fold (walk_expr E).
      destruct (is_target tk); (eapply fo_bind; [first [apply own_tail; assumption|apply own_walk; assumption]|]); intros; apply fo_ret; lfin.
    - (* last *)
      intros tk c c' HC n i Hn. cbn [mapiM]. apply fo_cons; [|apply fo_ret; constructor].
      match goal with H : W_stmt _ _ |- _ => apply H; [exact HC|] end. intros e He. exfalso. match goal with H : forall e, _ <> _ |- _ => exact (H e He) end.
    - (* more statements *)
      intros tk c c' HC n i Hn. change (mapiM ?f i (?x :: ?l)) with (bind (f i x) (fun y => bind (mapiM f (S i) l) (fun ys => ret (y :: ys)))). apply fo_cons.
      + match goal with H : W_stmt _ _ |- _ => apply H; [exact HC|] end. intros e He. cbn [length] in Hn. rewrite (pos_before tk n i (length b) Hn). reflexivity.
      + match goal with H : W_body _ _ |- _ => apply H; [exact HC|] end. cbn [length] in *. lia.
    - (* same statement *) apply (proj1 (proj2 (walk_more E))), HC.
    - (* expression statement *)
      destruct semi; [rgo; lfin|]. rewrite (Htk _ eq_refl). rgo. lfin.
    - (* arm *)
      rgo. eapply fo_bind; [apply arm_body; assumption|]. intros. apply fo_ret. lfin.
    - (* arm with a block *)
      rgo. eapply (fo_bind prints); [rgo; lfin|]. intros. apply fo_ret. lfin.
    - (* field *)
      apply fo_cons; [|rstep]. rgo. opened. unfold alike_in. tcbn. destruct colon; congruence.
    - (* same item *) apply (proj1 (proj2 (proj2 (walk_more E)))), HC.
    - (* macro item *)
      rgo. unfold alike_in in *. match goal with H : mtoks ?x = mtoks ?y |- _ => destruct x, y; cbn [itoks mtoks] in *; congruence end.
  Qed.
  Lemma more_refl c : NoDup (keys (fval (cx_bindings c))) -> more c c.
  Proof. intros H. constructor; try reflexivity; try assumption. exists []. symmetry. apply app_nil_r. Qed.
  Lemma rewrite_shift f i i' out : NoDup (keys (fl_bindings f)) -> rw_item R i i' -> expands E f i out -> exists out', expands E f i' out' /\ itoks out' = itoks out.
  Proof. intros HN H. apply expands_follows. apply rewrite_walk; [exact H|]. apply more_refl, HN. Qed.
End Order.
(** * Back, and with a finer relation *)
Section Change.
  Variables P Q : list attr -> list attr -> Prop.
  Hypothesis HPQ : forall a a', P a a' -> Q a a'.
  Lemma like_mono a a' : like P a a' -> like Q a a'.
  Proof. intros [->|H]; [left; reflexivity|right; apply HPQ, H]. Qed.
  Lemma own_mono e e' : own_expr P e e' -> own_expr Q e e'.
  Proof. intros [e0|a a' e0 Ht Ha H]; [apply oe_same|apply oe_own with (a := a); auto]. Qed.
  Lemma rw_mono i i' : rw_item P i i' -> rw_item Q i i'.
  Proof.
    revert i i'. apply (rw_item_m P (rw_expr Q) (rw_exprs Q) (rw_opt Q) (rw_body Q) (rw_stmt Q) (rw_arm Q) (rw_arms Q) (rw_fields Q) (rw_item Q) (rw_items Q) (rw_impls Q) (rw_traits Q)); intros;
      repeat match goal with H : like P _ _ |- _ => apply like_mono in H | H : own_expr P _ _ |- _ => apply own_mono in H end; solve [constructor; assumption].
  Qed.
  Hypothesis HS : forall a a', P a a' -> P a' a.
  Lemma like_sym a a' : like P a a' -> like P a' a.
  Proof. intros [->|H]; [left; reflexivity|right; apply HS, H]. Qed.
  Lemma own_sym e e' : own_expr P e e' -> own_expr P e' e.
  Proof.
    intros [e0|a a' e0 Ht Ha H]; [apply oe_same|]. assert (He : e0 = set_attrs a (set_attrs a' e0)) by (rewrite set_set; destruct e0; cbn in Ha |- *; congruence). rewrite He at 2.
    apply oe_own with (a := a'); [destruct e0; cbn in *; congruence|apply (get_set a), Ha|apply HS, H].
  Qed.
  Lemma rw_sym i i' : rw_item P i i' -> rw_item P i' i.
  Proof.
    revert i i'. apply (rw_item_m P (fun x y => rw_expr P y x) (fun x y => rw_exprs P y x) (fun x y => rw_opt P y x) (fun x y => rw_body P y x) (fun x y => rw_stmt P y x) (fun x y => rw_arm P y x)
      (fun x y => rw_arms P y x) (fun x y => rw_fields P y x) (fun x y => rw_item P y x) (fun x y => rw_items P y x) (fun x y => rw_impls P y x) (fun x y => rw_traits P y x)); intros;
      repeat match goal with H : like P _ _ |- _ => apply like_sym in H; revert H | H : own_expr P _ _ |- _ => apply own_sym in H; revert H end; intros; try (constructor; assumption).
    apply rb_last; [|assumption]. intros e ->. match goal with H : rw_stmt P (SExpr e None) ?s |- _ => inversion H; subst end; match goal with H : forall e, _ <> _ |- _ => eapply H; reflexivity end.
  Qed.
End Change.
(** * Attributes that are overridden, and flavors in parts *)
Definition ig (l : list event) : option (list string) * list string * bool :=
  (last_some (map ev_assigned l), flat_map ev_listed (after_assigned l), existsb ev_touches (after_assigned l)).
Lemma ig_ignores l l' : ig l = ig l' -> node_ignores l = node_ignores l'.
Proof. unfold ig, node_ignores. intros H. injection H as -> -> ->. reflexivity. Qed.
Lemma ig_app l m : ig (l ++ m) = match ig m with (Some b, x, t) => (Some b, x, t) | (None, x, t) => match ig l with (b, y, u) => (b, y ++ x, u || t) end end.
Proof.
  unfold ig. rewrite map_app, last_some_app, after_app. destruct (last_some (map ev_assigned m)) eqn:Hm; [reflexivity|]. rewrite (after_none m Hm), flat_map_app, existsb_app. reflexivity.
Qed.
Lemma last_keeps {A} (g : event -> option A) l x m : (says g x = true -> existsb (says g) m = true) -> last_of g (l ++ x :: m) = last_of g (l ++ m).
Proof.
  intros H. rewrite !last_of_app. change (x :: m) with ([x] ++ m). rewrite last_of_app. destruct (last_of g m) eqn:Hm; [reflexivity|].
  assert (Hx : g x = None).
  { unfold says in H. destruct (g x); [|reflexivity]. specialize (H eq_refl). apply existsb_exists in H. destruct H as (e & He & Hg). exfalso.
    clear - He Hg Hm. revert Hm. unfold last_of. induction m as [|y m IH]; [contradiction|]. cbn [map last_some]. destruct He as [->|He].
    - destruct (last_some (map g m)); [discriminate|]. intros Hm. rewrite Hm in Hg. discriminate.
    - destruct (last_some (map g m)); [discriminate|]. intros _. exact (IH He eq_refl). }
  unfold last_of at 1. cbn [map last_some]. rewrite Hx. reflexivity.
Qed.
Lemma ig_none x : says_ignores x = false -> ig [x] = (None, [], false).
Proof.
  unfold says_ignores. intros H. apply orb_false_iff in H. destruct H as [H1 H2]. unfold ig. cbn [map last_some after_assigned]. destruct (ev_assigned x) eqn:Hx; [discriminate|].
  pose proof (untouched_listed [x] (Forall_cons _ H1 (Forall_nil _))) as G. cbn [flat_map] in *. rewrite G. cbn [existsb]. rewrite H1. reflexivity.
Qed.
Lemma some_assigned m : existsb (says ev_assigned) m = true -> last_some (map ev_assigned m) <> None.
Proof.
  intros H. apply existsb_exists in H. destruct H as (e & He & Hg). unfold says in Hg. induction m as [|y m IH]; [contradiction|]. cbn [map last_some]. destruct He as [->|He].
  - destruct (last_some (map ev_assigned m)); [discriminate|]. destruct (ev_assigned e); discriminate.
  - specialize (IH He). destruct (last_some (map ev_assigned m)); [discriminate|contradiction].
Qed.
Lemma some_bound k m : existsb (binds k) m = true -> last_get k (flat_map ev_binds m) <> None.
Proof.
  intros H. apply existsb_exists in H. destruct H as (e & He & Hg). induction m as [|y m IH]; [contradiction|]. cbn [flat_map]. rewrite last_get_app. destruct He as [->|He].
  - destruct (last_get k (flat_map ev_binds m)); [discriminate|]. unfold binds in Hg. apply existsb_exists in Hg. destruct Hg as (k' & Hk & Hkk). apply String.eqb_eq in Hkk. subst k'.
    intros Hn. clear - Hk Hn. unfold keys in Hk. induction (ev_binds e) as [|[x v] l IH]; [contradiction|]. cbn in *. destruct (last_get k l); [discriminate|].
    destruct Hk as [<-|Hk]; [rewrite String.eqb_refl in Hn; discriminate|]. exact (IH Hk eq_refl).
  - specialize (IH He). destruct (last_get k (flat_map ev_binds m)); [discriminate|contradiction].
Qed.
Lemma exists_keeps (g : event -> bool) l x m : (g x = true -> existsb g m = true) -> existsb g (l ++ x :: m) = existsb g (l ++ m).
Proof. intros H. rewrite !existsb_app. cbn [existsb]. destruct (g x); [rewrite H by reflexivity|]; reflexivity. Qed.
Lemma covered_settings l o r : covered o r -> same_settings (l ++ o :: r) (l ++ r).
Proof.
  intros []. constructor; try (apply last_keeps; assumption); try (apply exists_keeps; assumption).
  - apply ig_ignores. rewrite !ig_app. change (o :: r) with ([o] ++ r). rewrite ig_app. destruct (ig r) as [[[b|] x] t] eqn:Hr; [reflexivity|].
    destruct (says_ignores o) eqn:Ho; [exfalso; unfold ig in Hr; injection Hr as Hr _ _; apply (some_assigned r); auto|]. rewrite (ig_none o Ho). reflexivity.
  - intros k. rewrite !flat_map_app. cbn [flat_map]. rewrite !last_get_app. destruct (last_get k (flat_map ev_binds r)) eqn:Hr; [reflexivity|].
    destruct (binds k o) eqn:Ho; [exfalso; apply (some_bound k r); auto|]. replace (last_get k (ev_binds o)) with (@None (list tt)); [reflexivity|].
    symmetry. pose proof (unbound k [o] (Forall_cons _ Ho (Forall_nil _))) as G. cbn [flat_map] in G. rewrite app_nil_r in G. exact G.
Qed.
Lemma parts_settings l f r : same_settings (l ++ EvFlavor f :: r) (l ++ flavor_parts f ++ r).
Proof.
  change (EvFlavor f :: r) with ([EvFlavor f] ++ r).
  assert (L : forall A (g : event -> option A), last_of g [EvFlavor f] = last_of g (flavor_parts f) -> last_of g (l ++ [EvFlavor f] ++ r) = last_of g (l ++ flavor_parts f ++ r))
    by (intros A g H; rewrite !last_of_app, H; reflexivity).
  assert (X : forall g : event -> bool, existsb g [EvFlavor f] = existsb g (flavor_parts f) -> existsb g (l ++ [EvFlavor f] ++ r) = existsb g (l ++ flavor_parts f ++ r))
    by (intros g H; rewrite !existsb_app, H; reflexivity).
  constructor; try (apply L; reflexivity); try (apply X; reflexivity).
  - apply ig_ignores. rewrite !ig_app. reflexivity.
  - intros k. rewrite !flat_map_app. cbn [flat_map ev_binds flavor_parts app]. rewrite ?app_nil_r. reflexivity.
Qed.
Lemma drops_meaning env a a' : drops_overridden env a a' -> same_meaning env a a'.
Proof. intros (Hf & l & o & r & H1 & H2 & HC). split; [exact Hf|]. eexists _, _. split; [exact H1|]. split; [exact H2|]. apply covered_settings, HC. Qed.
Lemma parts_meaning env a a' : in_parts env a a' -> same_meaning env a a'.
Proof. intros (Hf & l & f & r & H1 & H2). split; [exact Hf|]. eexists _, _. split; [exact H1|]. split; [exact H2|]. apply parts_settings. Qed.
