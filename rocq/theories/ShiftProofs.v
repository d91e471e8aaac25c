(** Two contexts with the same settings, one of which overrides more methods: the second produces what the first does.  *)
From Coq Require Import String Ascii Bool Arith Lia Permutation List.
From Verif Require Import Base Tokens Method Paths Context Flavor Attrs Syntax SyntaxInd Render Walker RootAttr MapFacts RenderSpec RenderProofs RenderVarProofs FlavorSpec AttrSpec AttrProofs SiteSpec ProgSpec WalkFacts SettingSpec WalkSpec AlikeSpec AlikeProofs ShiftSpec.
Import ListNotations.
Open Scope string_scope.
Open Scope list_scope.
Open Scope monad_scope.

(** * Contexts *)
Record more (c c' : ctx) : Prop := mk_more {
  mo_method : exists l, RenderSpec.chain (cx_method c') = RenderSpec.chain (cx_method c) ++ l;
  mo_targets : fval (cx_targets c') = fval (cx_targets c);
  mo_tails : fval (cx_tails c') = fval (cx_tails c);
  mo_ignores : fval (cx_ignores c') = fval (cx_ignores c);
  mo_results : fval (cx_results c') = fval (cx_results c);
  mo_macros : fval (cx_macros c') = fval (cx_macros c);
  mo_bindings : forall x, mget x (fval (cx_bindings c')) = mget x (fval (cx_bindings c));
  mo_nodup : NoDup (keys (fval (cx_bindings c)));
  mo_nodup' : NoDup (keys (fval (cx_bindings c')));
  mo_skip : fval (cx_skip c') = fval (cx_skip c);
  mo_fn : cx_fn c' = cx_fn c }.
Lemma parent_val {T} (o : option T) (p q : field T) : fval p = fval q -> fval (from_parent o p) = fval (from_parent o q).
Proof. destruct o; [reflexivity|exact (fun H => H)]. Qed.
Lemma merged_get {V} x (l : smap V) (p q : field (smap V)) : (forall x, mget x (fval p) = mget x (fval q)) -> mget x (fval (merged_from_parent l p)) = mget x (fval (merged_from_parent l q)).
Proof. intros H. destruct l as [|kv l]; [apply H|]. cbn [merged_from_parent from_parent fval]. rewrite !mget_mextend, H. reflexivity. Qed.
Lemma merged_nodup {V} (l : smap V) (p : field (smap V)) : NoDup (keys (fval p)) -> NoDup (keys (fval (merged_from_parent l p))).
Proof. intros H. destruct l as [|kv l]; [exact H|]. apply nodup_mextend, H. Qed.
Lemma more_updated i c c' : more c c' -> more (updated_by_inert_attr c i) (updated_by_inert_attr c' i).
Proof.
  intros [[l H1] H2 H3 H4 H5 H6 H7 H8 H9 H10 H11]. constructor; cbn [updated_by_inert_attr cx_method cx_targets cx_tails cx_ignores cx_results cx_macros cx_bindings cx_skip cx_fn]; try (apply parent_val; assumption); try assumption.
  - exists l. destruct (in_method i); [|exact H1]. cbn [from_parent RenderSpec.chain]. rewrite H1. reflexivity.
  - intros x. apply merged_get, H7.
  - apply merged_nodup, H8.
  - apply merged_nodup, H9.
Qed.
Lemma more_scope c c' : more c c' -> more (for_sub_scope c) (for_sub_scope c').
Proof.
  intros [H1 H2 H3 H4 H5 H6 H7 H8 H9 H10 H11]. constructor; try assumption. cbn [for_sub_scope cx_skip]. rewrite H10. destruct (fval (cx_skip c)) as [[]|]; reflexivity.
Qed.
Lemma more_fn i c c' : more c c' -> more (update_fn_info c i) (update_fn_info c' i).
Proof. intros [H1 H2 H3 H4 H5 H6 H7 H8 H9 H10 H11]. constructor; try assumption. cbn [update_fn_info cx_fn]. rewrite H11. reflexivity. Qed.

(** * Rendering *)
Definition extends {A} (x y : res A) : Prop := forall a, x = Ok a -> y = Ok a.
Lemma extends_refl {A} (x : res A) : extends x x.
Proof. intros a H. exact H. Qed.
Lemma extends_bind {A B} (x y : res A) (f g : A -> res B) : extends x y -> (forall a, extends (f a) (g a)) -> extends (bindR x f) (bindR y g).
Proof. intros H HF b. destruct x as [a|e|e]; cbn [bindR]; intros Hb; try discriminate. rewrite (H a eq_refl). apply HF, Hb. Qed.
Lemma loop_more grp grp' var var' ts : Forall (fun t => extends (grp t) (grp' t)) ts -> (forall n, extends (var n) (var' n)) ->
  forall flag, extends (expand_loop grp var flag ts) (expand_loop grp' var' flag ts).
Proof.
  intros HF Hv. induction HF as [|t r Ht HF IH]; intros flag; [apply extends_refl|].
  destruct t as [s p|s p|l p|d ts p]; destruct flag; cbn [expand_loop]; try apply extends_refl.
  - apply extends_bind; [apply Hv|]. intros a. apply extends_bind; [apply IH|intros; apply extends_refl].
  - apply extends_bind; [apply IH|intros; apply extends_refl].
  - destruct (Ascii.eqb s "$"); [apply IH|]. apply extends_bind; [apply IH|intros; apply extends_refl].
  - apply extends_bind; [apply IH|intros; apply extends_refl].
  - apply extends_bind; [exact Ht|]. intros a. apply extends_bind; [apply IH|intros; apply extends_refl].
Qed.
Lemma group_more var var' : (forall n, extends (var n) (var' n)) -> forall t, extends (expand_group var t) (expand_group var' t).
Proof.
  intros Hv. induction t as [s p|s p|l p|d ts p IH] using tt_ind'; try (apply extends_refl). cbn [expand_group].
  apply extends_bind; [apply loop_more; assumption|intros; apply extends_refl].
Qed.
Lemma same_map {V} (m m' : smap V) : NoDup (keys m) -> NoDup (keys m') -> (forall x, mget x m' = mget x m) -> Permutation m m'.
Proof.
  intros Hn Hn' H. assert (Hin : forall (l : smap V) x v, NoDup (keys l) -> (In (x, v) l <-> mget x l = Some v)).
  { clear. induction l as [|[k w] l IH]; intros x v Hn; cbn [mget]; [split; [contradiction|discriminate]|]. inversion Hn as [|? ? Hk Hl]; subst. destruct (String.eqb_spec x k) as [->|Hne].
    - split; [intros [He|Hi]; [congruence|]|intros He; left; congruence]. exfalso. apply Hk. apply in_map_iff. exists (k, v). auto.
    - rewrite <- IH by assumption. split; [intros [He|Hi]; [congruence|exact Hi]|right; assumption]. }
  assert (Hnd : forall l : smap V, NoDup (keys l) -> NoDup l) by (intros l; apply NoDup_map_inv).
  apply NoDup_Permutation; auto. intros [x v]. rewrite (Hin m), (Hin m'), H by assumption. reflexivity.
Qed.
Section More.
  Variables (ts_str : list tt -> string) (c c' : ctx).
  Hypothesis HC : more c c'.
  Lemma more_available : available_bindings c' = available_bindings c.
  Proof. unfold available_bindings. symmetry. apply sort_perm_eq; [apply (mo_nodup _ _ HC)|]. apply same_map; [apply (mo_nodup _ _ HC)|apply (mo_nodup' _ _ HC)|apply (mo_bindings _ _ HC)]. Qed.
  Lemma var_more k n src ets q s s' x : extends s s' -> extends (meta_var_toks ts_str c k n src ets q s x) (meta_var_toks ts_str c' k n src ets q s' x).
  Proof.
    intros Hs. unfold meta_var_toks, hooq_meta, get_bindings_token_stream, get_fn_name, get_fn_sig, get_binding. rewrite more_available, (mo_fn _ _ HC), (mo_bindings _ _ HC).
    destruct (metavar_of x) as [[]|]; try apply extends_refl. exact Hs.
  Qed.
  Lemma method_more k n src ets q : forall fm fm' l, RenderSpec.chain fm' = RenderSpec.chain fm ++ l ->
    extends (expand_method ts_str c k n src ets q fm) (expand_method ts_str c' k n src ets q fm').
  Proof.
    fix IH 1. intros [m anc] [m' anc'] l H. cbn [RenderSpec.chain app] in H. injection H as -> H. cbn [expand_method].
    assert (Ha : extends (match anc with Some a => expand_method ts_str c k n src ets q a | None => Err ErrNoSoFar end)
                         (match anc' with Some a => expand_method ts_str c' k n src ets q a | None => Err ErrNoSoFar end)).
    { destruct anc as [a|]; [|intros x Hx; discriminate]. destruct anc' as [a'|]; [|destruct a; discriminate H]. apply (IH a a' l H). }
    unfold expand_with. apply loop_more; [|intros x; apply var_more, Ha]. apply Forall_forall. intros t _. apply group_more. intros x. apply var_more, Ha.
  Qed.
  Lemma more_val : fval (cx_method c') = fval (cx_method c).
  Proof. destruct (mo_method _ _ HC) as [l H]. destruct (cx_method c) as [m a], (cx_method c') as [m' a']. cbn in H. injection H as -> _. reflexivity. Qed.
  Lemma render_more k n src ets q : extends (render_toks ts_str c k n src ets q) (render_toks ts_str c' k n src ets q).
  Proof.
    destruct (mo_method _ _ HC) as [l H]. unfold render_toks. rewrite more_val. apply extends_bind; [apply (method_more _ _ _ _ _ _ _ l H)|intros; apply extends_refl].
  Qed.
  Lemma more_check e : target_call_check c' e = target_call_check c e.
  Proof. unfold target_call_check, path_is_hook_call_like_err, path_is_not_hook_call_like_ok. rewrite (mo_tails _ _ HC), (mo_ignores _ _ HC). reflexivity. Qed.
  Lemma more_result : return_type_is_result c' = return_type_is_result c.
  Proof. unfold return_type_is_result. rewrite (mo_fn _ _ HC), (mo_results _ _ HC). reflexivity. Qed.
  Lemma more_target k : is_hook_target c' k = is_hook_target c k.
  Proof. unfold is_hook_target. rewrite (mo_targets _ _ HC). reflexivity. Qed.
  Lemma more_skipped : is_skipped c' = is_skipped c.
  Proof. unfold is_skipped. rewrite (mo_skip _ _ HC). reflexivity. Qed.
  Lemma more_macros : hook_in_macros c' = hook_in_macros c.
  Proof. apply (mo_macros _ _ HC). Qed.
End More.

(** * Walking *)
(** what the first run gives, the second gives as well, with the same numbers *)
Definition follows {A} (R : A -> A -> Prop) (m m' : M A) : Prop := forall n a k, m n = Ok (a, k) -> exists b, m' n = Ok (b, k) /\ R a b.
Lemma fo_ret {A} (R : A -> A -> Prop) a b : R a b -> follows R (ret a) (ret b).
Proof. intros H n x k Hx. inversion Hx; subst. exists b. split; [reflexivity|exact H]. Qed.
Lemma fo_bind {A B} (R : A -> A -> Prop) (Q : B -> B -> Prop) m m' f f' : follows R m m' -> (forall a b, R a b -> follows Q (f a) (f' b)) -> follows Q (bind m f) (bind m' f').
Proof.
  intros H HF n b k. unfold bind. destruct (m n) as [[a k1]|x|x] eqn:Hm; intros Hb; try discriminate. destruct (H _ _ _ Hm) as (a' & Ha & HR). rewrite Ha. apply (HF a a' HR _ _ _ Hb).
Qed.
Lemma fo_map {A} (R : A -> A -> Prop) (f g : A -> M A) l : Forall (fun x => follows R (f x) (g x)) l -> follows (Forall2 R) (mapM f l) (mapM g l).
Proof.
  induction 1 as [|x l Hx Hl IH]; cbn [mapM]; [apply fo_ret; constructor|]. eapply fo_bind; [exact Hx|]. intros a b Hab. eapply fo_bind; [exact IH|].
  intros l1 l2 Hll. apply fo_ret. constructor; assumption.
Qed.
Lemma fo_mapi {A} (R : A -> A -> Prop) (f g : nat -> A -> M A) l : Forall (fun x => forall i, follows R (f i x) (g i x)) l -> forall i, follows (Forall2 R) (mapiM f i l) (mapiM g i l).
Proof.
  induction 1 as [|x l Hx Hl IH]; intros i; cbn [mapiM]; [apply fo_ret; constructor|]. eapply fo_bind; [apply Hx|]. intros a b Hab. eapply fo_bind; [apply IH|].
  intros l1 l2 Hll. apply fo_ret. constructor; assumption.
Qed.
Lemma fo_opt {A} (R : A -> A -> Prop) (f g : A -> M A) o : optP (fun x => follows R (f x) (g x)) o -> follows (both R) (optM f o) (optM g o).
Proof.
  destruct o; cbn [optM optP]; intros H; [|apply fo_ret; exact I]. eapply fo_bind; [exact H|]. intros x y Hxy. apply fo_ret. exact Hxy.
Qed.
Definition prints (e e' : expr) : Prop := etoks e = etoks e' /\ shape_of e = shape_of e'.
Definition alike_in {A} (toks : A -> list tt) (x y : A) : Prop := toks x = toks y.
Lemma prints_map l l' : Forall2 prints l l' -> map etoks l = map etoks l'.
Proof. induction 1 as [|x y l l' [H _]]; [reflexivity|]. cbn [map]. congruence. Qed.
Lemma in_flat {A} (t : A -> list tt) l l' : Forall2 (alike_in t) l l' -> flat_map t l = flat_map t l'.
Proof. induction 1 as [|x y l l' H]; [reflexivity|]. cbn [flat_map]. unfold alike_in in H. congruence. Qed.
Lemma in_map_toks {A} (t : A -> list tt) l l' : Forall2 (alike_in t) l l' -> map t l = map t l'.
Proof. induction 1 as [|x y l l' H]; [reflexivity|]. cbn [map]. unfold alike_in in H. congruence. Qed.
Lemma opt_prints o o' : both prints o o' -> opt_toks etoks o = opt_toks etoks o'.
Proof. destruct o, o'; cbn; try contradiction; [|reflexivity]. intros [H _]. exact H. Qed.
Section Walk.
  Variable E : env.
  Lemma fo_handle {B} (Q : B -> B -> Prop) a c c' f1 f2 : more c c' -> (forall a' s x x', more x x' -> follows Q (f1 (a', s, x)) (f2 (a', s, x'))) -> follows Q (bind (handle E a c) f1) (bind (handle E a c') f2).
  Proof.
    intros HC H. eapply (fo_bind (fun x y => fst x = fst y /\ more (snd x) (snd y))).
    - intros n [[a' s] x] k. unfold handle, lift, handle_inert_attrs. destruct (extract (ev_attr E) a) as [[i l]|?|?]; cbn [bindR fst snd]; intros Hx; inversion Hx; subst.
      eexists. split; [reflexivity|]. cbn [fst snd]. rewrite (more_skipped _ _ HC). split; [reflexivity|]. apply more_updated, HC.
    - intros [[a1 s1] x1] [[a2 s2] x2] [H1 H2]. cbn in *. injection H1 as <- <-. apply H, H2.
  Qed.
  Lemma fo_hook apply e1 e2 src k q c c' : more c c' -> prints e1 e2 ->
    follows (fun x y => prints (fst x) (fst y) /\ snd x = snd y) (hook_expr E apply e1 src k q c) (hook_expr E apply e2 src k q c').
  Proof.
    intros HC [He Hs] n [x b] m. unfold hook_expr. rewrite (more_target _ _ HC). destruct apply; cbn [negb].
    2:{ intros H. inversion H; subst. eexists. split; [reflexivity|]. split; [split; assumption|reflexivity]. }
    destruct (is_hook_target c k); cbn [negb].
    2:{ intros H. inversion H; subst. eexists. split; [reflexivity|]. split; [split; assumption|reflexivity]. }
    unfold render_expr. rewrite <- He. pose proof (render_more (ev_str E) c c' HC k (get_count k (count_up k n)) src (etoks e1) q) as HR.
    destruct (render_toks (ev_str E) c k _ _ _ _) as [t1|?|?]; cbn [bindR]; intros H; try discriminate. rewrite (HR t1 eq_refl). cbn [bindR].
    destruct (ev_parse E t1); [|discriminate]. inversion H; subst. rewrite (more_val _ _ HC). eexists. split; [reflexivity|]. split; [split; reflexivity|reflexivity].
  Qed.
  Definition L_expr (e : expr) : Prop := forall ov c c', more c c' -> follows prints (walk_expr E ov c e) (walk_expr E ov c' e).
  Definition L_stmt (s : stmt) : Prop := forall tk c c', more c c' -> follows (alike_in stoks) (walk_stmt E tk c s) (walk_stmt E tk c' s).
  Definition L_item (i : item) : Prop := forall c c', more c c' -> follows (alike_in itoks) (walk_item E c i) (walk_item E c' i).
  Definition L_impl (i : impl_item) : Prop := forall c c', more c c' -> follows (alike_in iitoks) (walk_impl_item E c i) (walk_impl_item E c' i).
  Definition L_trait (i : trait_item) : Prop := forall c c', more c c' -> follows (alike_in titoks) (walk_trait_item E c i) (walk_trait_item E c' i).
  Definition L_arm (i : arm) : Prop := forall c c', more c c' -> follows (alike_in armtoks) (walk_arm E c i) (walk_arm E c' i).
  Definition L_field (i : fieldv) : Prop := forall c c', more c c' -> follows (alike_in fieldtoks) (walk_field E c i) (walk_field E c' i).
  Definition L_mac (i : mac) : Prop := forall c c', more c c' -> follows (alike_in mtoks) (walk_mac E c i) (walk_mac E c' i).
  Definition L_ev (i : evaluable) : Prop := forall c c', more c c' -> follows (alike_in vtoks) (walk_evaluable E c i) (walk_evaluable E c' i).
  Lemma prints_refl e : prints e e.
  Proof. split; reflexivity. Qed.
  Lemma fo_tail tk e c c' : more c c' -> L_expr e ->
    follows prints (handle_tail_with E (fun ov c' => walk_expr E ov c' e) e c tk) (handle_tail_with E (fun ov c' => walk_expr E ov c' e) e c' tk).
  Proof.
    intros HC HS. unfold handle_tail_with. destruct (get_attrs e) as [a|] eqn:Ea; [|apply fo_ret, prints_refl].
    apply fo_handle; [exact HC|]. intros a' s x x' HX. eapply fo_bind; [apply HS, HX|]. intros u v Huv. destruct (negb (is_target tk)); [apply fo_ret, Huv|].
    rewrite (more_check _ _ HX), (more_result _ _ HX), (shape_check x u v) by apply Huv. destruct (target_call_check x v) as [t nt]. destruct (_ || _); [|apply fo_ret, Huv].
    rewrite (proj1 Huv). eapply fo_bind; [apply fo_hook; assumption|]. intros [x1 ?] [y1 ?] [H1 H2]. apply fo_ret. exact H1.
  Qed.
  Lemma fo_stmts (tk : nat -> tail_kind) c c' b : more c c' -> Forall L_stmt b -> follows (Forall2 (alike_in stoks)) (mapiM (fun i s => walk_stmt E (tk i) c s) 0 b) (mapiM (fun i s => walk_stmt E (tk i) c' s) 0 b).
  Proof. intros HC HF. apply fo_mapi. eapply Forall_impl; [|exact HF]. intros s Hs i. apply Hs, HC. Qed.

  Ltac lcbn :=
    cbn [walk_expr walk_stmt walk_item walk_impl_item walk_trait_item walk_arm walk_field walk_mac walk_evaluable];
    try fold (walk_expr E); try fold (walk_stmt E); try fold (walk_item E); try fold (walk_impl_item E);
    try fold (walk_trait_item E); try fold (walk_arm E); try fold (walk_field E); try fold (walk_mac E);
    try fold (walk_evaluable E).
  Ltac mores := repeat first [assumption | apply more_scope | apply more_fn].
  Ltac each := match goal with H : Forall ?P ?l |- Forall _ ?l => eapply Forall_impl; [|exact H]; let x := fresh in let hx := fresh in intros x hx; apply hx; mores end.
  Ltac lwalk :=
    first
    [ match goal with H : L_expr ?e |- follows _ (walk_expr _ _ _ ?e) _ => apply H; mores end
    | match goal with H : L_mac ?e |- follows _ (walk_mac _ _ ?e) _ => apply H; mores end
    | match goal with H : L_item ?e |- follows _ (walk_item _ _ ?e) _ => apply H; mores end
    | match goal with H : L_stmt ?e |- follows _ (walk_stmt _ _ _ ?e) _ => apply H; mores end
    | match goal with H : optP L_expr ?o |- follows _ (optM _ ?o) _ => apply (fo_opt prints); destruct o; cbn [optP] in *; [apply H; mores|exact I] end
    | match goal with |- follows _ (mapiM _ 0 _) _ => apply fo_stmts; [mores|assumption] end
    | match goal with H : Forall L_expr ?l |- follows _ (mapM _ ?l) _ => apply (fo_map prints); each end
    | match goal with H : Forall L_item ?l |- follows _ (mapM _ ?l) _ => apply (fo_map (alike_in itoks)); each end
    | match goal with H : Forall L_impl ?l |- follows _ (mapM _ ?l) _ => apply (fo_map (alike_in iitoks)); each end
    | match goal with H : Forall L_trait ?l |- follows _ (mapM _ ?l) _ => apply (fo_map (alike_in titoks)); each end
    | match goal with H : Forall L_arm ?l |- follows _ (mapM _ ?l) _ => apply (fo_map (alike_in armtoks)); each end
    | match goal with H : Forall L_field ?l |- follows _ (mapM _ ?l) _ => apply (fo_map (alike_in fieldtoks)); each end
    | match goal with H : Forall L_ev ?l |- follows _ (mapM _ ?l) _ => apply (fo_map (alike_in vtoks)); each end ].
  Ltac lgo :=
    repeat match goal with
    | |- follows _ (bind (handle _ _ _) _) _ => apply fo_handle; [assumption|intros ? ? ? ? ?; cbv beta iota]
    | |- follows _ (bind _ _) _ => eapply fo_bind; [lwalk|intros; cbv beta iota]
    | |- follows _ (ret _) _ => apply fo_ret
    end.
  Ltac opened :=
    repeat match goal with
    | H : prints _ _ |- _ => let h1 := fresh "Ht" in let h2 := fresh "Hs" in destruct H as (h1 & h2)
    | H : Forall2 prints _ _ |- _ => apply prints_map in H
    | H : Forall2 (alike_in etoks) _ _ |- _ => apply in_map_toks in H
    | H : Forall2 (alike_in fieldtoks) _ _ |- _ => apply in_map_toks in H
    | H : Forall2 (alike_in _) _ _ |- _ => apply in_flat in H
    | H : both prints _ _ |- _ => apply opt_prints in H
    end.
  Ltac tcbn := cbn [opt_toks etoks stoks itoks iitoks titoks armtoks fieldtoks vtoks]; try fold etoks; try fold stoks; try fold itoks; try fold iitoks; try fold titoks; try fold armtoks; try fold fieldtoks.
  Ltac lfin := opened; repeat split; unfold alike_in in *; [tcbn; congruence | try reflexivity ..].

  Lemma walk_more : (forall x, L_expr x) /\ (forall x, L_stmt x) /\ (forall x, L_item x) /\ (forall x, L_impl x) /\ (forall x, L_trait x) /\
    (forall x, L_arm x) /\ (forall x, L_field x) /\ (forall x, L_mac x) /\ (forall x, L_ev x).
  Proof.
    apply syntax_ind2; intros.
    all: match goal with
         | |- L_stmt _ => intros tk c1 c1' HC
         | |- L_expr _ => intros ov c1 c1' HC
         | _ => intros c1 c1' HC
         end; lcbn.
    all: try solve [lgo; lfin].
    all: try solve [apply fo_ret; first [apply prints_refl|reflexivity]].
    - (* call *)
      lgo. opened. split; [tcbn; congruence|].
      match goal with Hs : shape_of ?x = shape_of ?y |- _ => clear - Hs; unfold shape_of in *; cbn [seen]; destruct (seen x), (seen y); try discriminate; try reflexivity;
        repeat match type of Hs with context[match seen ?f with _ => _ end] => destruct (seen f); try discriminate; try reflexivity end; congruence end.
    - (* closure *)
      apply fo_handle; [assumption|]. intros a' s x x' HX. cbv beta iota. rewrite (mo_fn _ _ HX). eapply (fo_bind prints).
      + destruct body; try (apply fo_tail; [mores|assumption]). cbn [stmts_of] in *. apply fo_handle; [mores|]. intros ? ? ? ? ?. lgo. lfin.
      + intros u v Huv. apply fo_ret. lfin.
    - (* return *)
      apply fo_handle; [assumption|]. intros a' s x x' HX. cbv beta iota. destruct e as [e0|]; [|apply fo_ret, prints_refl]. cbn [optP] in *.
      eapply fo_bind; [lwalk|]. intros u v Huv. rewrite (more_check _ _ HX), (more_result _ _ HX), (shape_check x u v) by apply Huv. destruct (target_call_check x v) as [t nt].
      destruct (_ || _).
      + eapply fo_bind; [apply fo_hook; assumption|]. intros [u' ?] [v' ?] [Hf _]. cbn [fst] in Hf. apply fo_ret. lfin.
      + apply fo_ret. lfin.
    - (* try *)
      apply fo_handle; [assumption|]. intros a' s x x' HX. cbv beta iota. eapply fo_bind; [lwalk|]. intros u v Huv. eapply fo_bind; [apply fo_hook; assumption|].
      intros [u' ?] [v' exc] [Hf Hf2]. cbn [fst snd] in *. subst. apply fo_ret. destruct exc; [|lfin].
      destruct Hf as (H1 & H2). split; [destruct u', v'; exact H1|destruct u', v'; exact H2].
    - (* expression statement *)
      destruct semi; [lgo; lfin|]. destruct (is_target tk); [|lgo; lfin]. eapply fo_bind; [apply fo_tail; assumption|]. intros u v Huv. apply fo_ret. lfin.
    - (* macro item *)
      destruct name; [apply fo_ret; reflexivity|]. lgo. unfold alike_in in *. tcbn. repeat f_equal.
      match goal with H : mtoks ?x = mtoks ?y |- _ => destruct x, y; exact H end.
    - (* arm *)
      lgo. eapply (fo_bind prints); [|intros; apply fo_ret; lfin]. destruct body; first [lwalk | apply fo_tail; assumption].
    - (* field *)
      lgo. opened. unfold alike_in. tcbn. destruct colon; congruence.
    - (* macro call *)
      rewrite (more_macros _ _ HC). destruct (negb _); [apply fo_ret; reflexivity|]. destruct view as [l|]; [|apply fo_ret; reflexivity]. cbn [optP] in *. lgo. opened. unfold alike_in.
      cbn [mtoks]. congruence.
  Qed.
End Walk.

(** * One node or two *)
Lemma more_trans c1 c2 c3 : more c1 c2 -> more c2 c3 -> more c1 c3.
Proof.
  intros [[l H1] H2 H3 H4 H5 H6 H7 H8 H9 H10 H11] [[l' G1] G2 G3 G4 G5 G6 G7 G8 G9 G10 G11]. constructor; try congruence; try assumption.
  exists (l ++ l'). rewrite G1, H1. symmetry. apply app_assoc.
Qed.
Lemma none_last {A} (g : event -> option A) es : Forall (fun e => g e = None) es -> last_of g es = None.
Proof. unfold last_of. induction 1 as [|e es He Hes IH]; [reflexivity|]. cbn [map last_some]. rewrite IH. exact He. Qed.
Lemma false_exists (g : event -> bool) es : Forall (fun e => g e = false) es -> existsb g es = false.
Proof. induction 1 as [|e es He Hes IH]; [reflexivity|]. cbn [existsb]. rewrite He, IH. reflexivity. Qed.
Lemma split_or (g h : event -> bool) es : Forall (fun e => g e || h e = false) es -> Forall (fun e => g e = false) es /\ Forall (fun e => h e = false) es.
Proof. intros H. split; (eapply Forall_impl; [|exact H]); intros e He; apply orb_false_iff in He; apply He. Qed.
Lemma untouched_listed es : Forall (fun e => ev_touches e = false) es -> flat_map ev_listed es = [].
Proof.
  induction 1 as [|e es He Hes IH]; [reflexivity|]. cbn [flat_map]. rewrite IH, app_nil_r. destruct e; try reflexivity; try discriminate. cbn in *. destruct (bang_names l); [reflexivity|discriminate].
Qed.
Lemma last_of_app {A} (g : event -> option A) a b : last_of g (a ++ b) = match last_of g b with Some x => Some x | None => last_of g a end.
Proof. unfold last_of. rewrite map_app. apply last_some_app. Qed.
Lemma after_sub es : incl (after_assigned es) es.
Proof.
  induction es as [|e r IH]; [intros x Hx; exact Hx|]. cbn [after_assigned]. destruct (last_some (map ev_assigned r)); [intros x Hx; right; apply IH, Hx|].
  destruct (ev_assigned e); [intros x Hx; right; exact Hx|apply incl_refl].
Qed.
Lemma after_untouched (P : event -> Prop) es : Forall P es -> Forall P (after_assigned es).
Proof. rewrite !Forall_forall. intros H e He. apply H, after_sub, He. Qed.
Lemma after_app es o : after_assigned (es ++ o) = match last_some (map ev_assigned o) with Some _ => after_assigned o | None => after_assigned es ++ o end.
Proof.
  induction es as [|e es IH]; cbn [app].
  - destruct (last_some (map ev_assigned o)) eqn:Ho; [reflexivity|]. rewrite after_none by exact Ho. reflexivity.
  - cbn [after_assigned]. rewrite map_app, last_some_app. destruct (last_some (map ev_assigned o)) eqn:Ho; [exact IH|].
    destruct (last_some (map ev_assigned es)); [exact IH|]. destruct (ev_assigned e); reflexivity.
Qed.
(** what the two nodes leave for the ignored names is what the one node leaves *)
Lemma ignores_app es o : Forall (fun e => says_ignores e = false) es \/ Forall (fun e => ev_touches e = false) o ->
  node_ignores (es ++ o) = match node_ignores o with Some x => Some x | None => node_ignores es end.
Proof.
  intros H. unfold node_ignores. rewrite after_app, map_app, last_some_app. destruct (last_some (map ev_assigned o)) as [b|] eqn:Ho; [reflexivity|].
  rewrite (after_none o Ho), flat_map_app, existsb_app. destruct H as [H|H].
  - apply split_or in H. destruct H as [H1 H2]. assert (Hn : last_some (map ev_assigned es) = None).
    { apply (none_last ev_assigned). eapply Forall_impl; [|exact H2]. intros e He. cbv beta in He. destruct (ev_assigned e); [discriminate|reflexivity]. }
    rewrite Hn, (after_none es Hn), (untouched_listed es H1), (false_exists _ es H1). cbn [app orb]. destruct (existsb ev_touches o); reflexivity.
  - rewrite (untouched_listed o H), (false_exists _ o H), app_nil_r, orb_false_r. reflexivity.
Qed.
Section Node.
  Variable env : attr_env.
  Lemma events_app a b es o : node_events env a es -> node_events env b o -> node_events env (a ++ b) (es ++ o).
  Proof. intros Ha Hb. induction Ha; cbn [app]; [exact Hb|constructor; assumption|apply ne_foreign; assumption]. Qed.
  Lemma apply_app es o i : apply_events (es ++ o) i = apply_events o (apply_events es i).
  Proof. revert i. induction es as [|e es IH]; intros i; [reflexivity|]. cbn [app apply_events]. apply IH. Qed.
End Node.
Notation after es := (apply_events es inert0).
Lemma from_none {T} (o : option T) (p : field T) : fval (from_parent o p) = match o with Some x => x | None => fval p end.
Proof. destruct o; reflexivity. Qed.
Lemma merged_val x l (p : field (smap (list tt))) : mget x (fval (merged_from_parent l p)) = match last_get x l with Some v => Some v | None => mget x (fval p) end.
Proof. destruct l as [|kv l]; [reflexivity|]. cbn [merged_from_parent from_parent fval]. apply mget_mextend. Qed.
Lemma after_nodup es : NoDup (keys (in_bindings (after es))).
Proof. apply apply_nodup. constructor. Qed.
Lemma after_get es x : last_get x (in_bindings (after es)) = last_get x (flat_map ev_binds es).
Proof. rewrite last_get_nodup by apply after_nodup. apply sb_bindings, apply_set. Qed.
Section Merge.
  Variables (c : ctx) (es o : list event).
  Hypothesis HA : apart es o.
  Hypothesis HN : NoDup (keys (fval (cx_bindings c))).
  Let two := updated_by_inert_attr (updated_by_inert_attr c (after es)) (after o).
  Let one := updated_by_inert_attr c (after (es ++ o)).
  Lemma one_field {A} (g : event -> option A) (f : inert -> option A) (p : field A) : (forall l, f (after l) = last_of g l) ->
    fval (from_parent (f (after (es ++ o))) p) = fval (from_parent (f (after o)) (from_parent (f (after es)) p)).
  Proof. intros H. rewrite !from_none, !H, last_of_app. destruct (last_of g o); reflexivity. Qed.
  Lemma one_method : RenderSpec.chain (cx_method one) = RenderSpec.chain (cx_method two).
  Proof.
    cbn [one two updated_by_inert_attr cx_method]. rewrite !(fun l => sb_method _ _ (apply_set l)), last_of_app.
    destruct (ap_method _ _ HA) as [H|H]; rewrite (none_last _ _ H); [|reflexivity]. destruct (last_of ev_method o); reflexivity.
  Qed.
  Lemma one_ignores : fval (cx_ignores one) = fval (cx_ignores two).
  Proof.
    cbn [one two updated_by_inert_attr cx_ignores]. rewrite !from_none, !(fun l => sb_ignores _ _ (apply_set l)), (ignores_app _ _ (ap_ignores _ _ HA)). destruct (node_ignores o); reflexivity.
  Qed.
  Lemma one_skip : fval (cx_skip one) = fval (cx_skip two).
  Proof.
    cbn [one two updated_by_inert_attr cx_skip]. rewrite !from_none. unfold get_skip_status. rewrite !(fun l => sb_skip _ _ (apply_set l)), !(fun l => sb_skip_all _ _ (apply_set l)), !existsb_app.
    destruct (ap_skip _ _ HA) as [H|H]; apply split_or in H; destruct H as [H1 H2]; rewrite (false_exists _ _ H1), (false_exists _ _ H2).
    - cbn [orb]. destruct (existsb is_skip o), (existsb is_skip_all o); reflexivity.
    - rewrite !orb_false_r. reflexivity.
  Qed.
  Lemma one_get x : mget x (fval (cx_bindings one)) = mget x (fval (cx_bindings two)).
  Proof.
    cbn [one two updated_by_inert_attr cx_bindings]. rewrite !merged_val, !after_get, flat_map_app, last_get_app. destruct (last_get x (flat_map ev_binds o)); reflexivity.
  Qed.
  Lemma one_nodup : NoDup (keys (fval (cx_bindings one))) /\ NoDup (keys (fval (cx_bindings two))).
  Proof. split; cbn [one two updated_by_inert_attr cx_bindings]; repeat apply merged_nodup; exact HN. Qed.
  Lemma two_one : more two one.
  Proof.
    constructor; try apply one_nodup; try reflexivity.
    - exists []. rewrite app_nil_r. apply one_method.
    - apply (one_field ev_targets in_targets). intros l. apply (sb_targets _ _ (apply_set l)).
    - apply (one_field ev_tails in_tails). intros l. apply (sb_tails _ _ (apply_set l)).
    - apply one_ignores.
    - apply (one_field ev_results in_results). intros l. apply (sb_results _ _ (apply_set l)).
    - apply (one_field ev_macros in_macros). intros l. apply (sb_macros _ _ (apply_set l)).
    - apply one_get.
    - apply one_skip.
  Qed.
  Lemma one_two : more one two.
  Proof.
    destruct two_one as [_ H2 H3 H4 H5 H6 H7 H8 H9 H10 H11]. constructor; auto.
    exists []. rewrite app_nil_r. symmetry. apply one_method.
  Qed.
End Merge.

(** * Items *)
Definition put (a : list attr) (i : item) : item :=
  match i with
  | IFn _ vis s sp b => IFn a vis s sp b
  | IImpl _ hd sp l => IImpl a hd sp l
  | IMod _ hd sp l => IMod a hd sp l
  | IConst _ hd e semi => IConst a hd e semi
  | IStatic _ hd e semi => IStatic a hd e semi
  | ITrait _ hd sp l => ITrait a hd sp l
  | IMacro _ None m semi => IMacro a None m semi
  | IMacro _ (Some _) _ _ | IOther _ _ => i
  end.
Definition impl_put (a : list attr) (i : impl_item) : impl_item :=
  match i with
  | IIFn _ vis s sp b => IIFn a vis s sp b
  | IIConst _ hd e semi => IIConst a hd e semi
  | IIMacro _ m semi => IIMacro a m semi
  | IIOther _ _ => i
  end.
Definition trait_put (a : list attr) (i : trait_item) : trait_item :=
  match i with
  | TIConst _ hd e semi => TIConst a hd e semi
  | TIFn _ s sp b => TIFn a s sp b
  | TIMacro _ m semi => TIMacro a m semi
  | TIOther _ _ => i
  end.
Lemma put_own i : put (own i) i = i.
Proof. destruct i as [| | | | | |? [] ? ?|]; reflexivity. Qed.
Lemma put_give x i : put (x ++ own i) i = give x i.
Proof. destruct i as [| | | | | |? [] ? ?|]; reflexivity. Qed.
Lemma impl_put_own i : impl_put (impl_own i) i = i.
Proof. destruct i; reflexivity. Qed.
Lemma impl_put_give x i : impl_put (x ++ impl_own i) i = impl_give x i.
Proof. destruct i; reflexivity. Qed.
Lemma trait_put_own i : trait_put (trait_own i) i = i.
Proof. destruct i; reflexivity. Qed.
Lemma trait_put_give x i : trait_put (x ++ trait_own i) i = trait_give x i.
Proof. destruct i; reflexivity. Qed.
Lemma foreign_hooq x a : all_hooq x -> foreign (x ++ a) = foreign a.
Proof. unfold foreign. induction 1 as [|y x Hy Hx IH]; [reflexivity|]. cbn [app filter]. rewrite Hy. exact IH. Qed.
Section Items.
  Variable E : env.
  Lemma handle_after a o c : node_events (ev_attr E) a o -> handle_inert_attrs (ev_attr E) a c = Ok (foreign a, in_skip (after o) || in_skip_all (after o) || is_skipped c, updated_by_inert_attr c (after o)).
  Proof. intros H. unfold handle_inert_attrs, extract. rewrite (loop_complete _ _ _ H). reflexivity. Qed.
  Section Put.
    Variables (a1 a2 : list attr) (o1 o2 : list event) (c1 c2 : ctx).
    Hypothesis HF : foreign a1 = foreign a2.
    Hypothesis H1 : node_events (ev_attr E) a1 o1.
    Hypothesis H2 : node_events (ev_attr E) a2 o2.
    Hypothesis HM : more (updated_by_inert_attr c1 (after o1)) (updated_by_inert_attr c2 (after o2)).
    Lemma fo_node {B} (Q : B -> B -> Prop) f1 f2 :
      (forall a' s s' x x', more x x' -> follows Q (f1 (a', s, x)) (f2 (a', s', x'))) -> follows Q (bind (handle E a1 c1) f1) (bind (handle E a2 c2) f2).
    Proof.
      intros HQ n b k. unfold bind, handle, lift. rewrite (handle_after _ _ _ H1), (handle_after _ _ _ H2), <- HF. intros Hb. apply (HQ _ _ _ _ _ HM _ _ _ Hb).
    Qed.
    Lemma put_follows i : follows (alike_in itoks) (walk_item E c1 (put a1 i)) (walk_item E c2 (put a2 i)).
    Proof.
      destruct (walk_more E) as (We & Ws & Wi & Wm & Wt & _ & _ & Wc & _).
      destruct i as [a vis s sp b|a hd sp l|a hd sp l|a hd e semi|a hd e semi|a hd sp l|a [nm|] m semi|a ts]; cbn [put walk_item]; fold (walk_item E); fold (walk_impl_item E); fold (walk_trait_item E); fold (walk_stmt E); fold (walk_expr E); fold (walk_mac E);
        try (apply fo_ret; reflexivity); apply fo_node; intros a' s1 s2 x x' HX; cbv beta iota.
      - eapply fo_bind; [apply fo_stmts; [apply more_scope, more_fn, HX|apply Forall_forall; intros; apply Ws]|]. intros l l' Hl. apply fo_ret. unfold alike_in. cbn [itoks]. fold stoks. rewrite (in_flat _ _ _ Hl). reflexivity.
      - eapply fo_bind; [apply (fo_map (alike_in iitoks)), Forall_forall; intros; apply Wm, HX|]. intros y y' Hl. apply fo_ret. unfold alike_in. cbn [itoks]. fold iitoks. rewrite (in_flat _ _ _ Hl). reflexivity.
      - eapply fo_bind; [apply (fo_map (alike_in itoks)), Forall_forall; intros; apply Wi, HX|]. intros y y' Hl. apply fo_ret. unfold alike_in. cbn [itoks]. fold itoks. rewrite (in_flat _ _ _ Hl). reflexivity.
      - eapply fo_bind; [apply We, HX|]. intros y y' [Hl _]. apply fo_ret. unfold alike_in. cbn [itoks]. fold etoks. rewrite Hl. reflexivity.
      - eapply fo_bind; [apply We, HX|]. intros y y' [Hl _]. apply fo_ret. unfold alike_in. cbn [itoks]. fold etoks. rewrite Hl. reflexivity.
      - eapply fo_bind; [apply (fo_map (alike_in titoks)), Forall_forall; intros; apply Wt, HX|]. intros y y' Hl. apply fo_ret. unfold alike_in. cbn [itoks]. fold titoks. rewrite (in_flat _ _ _ Hl). reflexivity.
      - eapply fo_bind; [apply Wc, HX|]. intros y y' Hl. apply fo_ret. unfold alike_in in *. destruct y, y'. cbn [itoks mtoks] in *. congruence.
    Qed.
    Lemma impl_put_follows i : follows (alike_in iitoks) (walk_impl_item E c1 (impl_put a1 i)) (walk_impl_item E c2 (impl_put a2 i)).
    Proof.
      destruct (walk_more E) as (We & Ws & Wi & Wm & Wt & _ & _ & Wc & _).
      destruct i as [a vis s sp b|a hd e semi|a m semi|a ts]; cbn [impl_put walk_impl_item]; fold (walk_stmt E); fold (walk_expr E); fold (walk_mac E);
        try (apply fo_ret; reflexivity); apply fo_node; intros a' s1 s2 x x' HX; cbv beta iota.
      - eapply fo_bind; [apply fo_stmts; [apply more_scope, more_fn, HX|apply Forall_forall; intros; apply Ws]|]. intros l l' Hl. apply fo_ret. unfold alike_in. cbn [iitoks]. fold stoks. rewrite (in_flat _ _ _ Hl). reflexivity.
      - eapply fo_bind; [apply We, HX|]. intros y y' [Hl _]. apply fo_ret. unfold alike_in. cbn [iitoks]. fold etoks. rewrite Hl. reflexivity.
      - eapply fo_bind; [apply Wc, HX|]. intros y y' Hl. apply fo_ret. unfold alike_in in *. destruct y, y'. cbn [iitoks mtoks] in *. congruence.
    Qed.
    Lemma trait_put_follows i : follows (alike_in titoks) (walk_trait_item E c1 (trait_put a1 i)) (walk_trait_item E c2 (trait_put a2 i)).
    Proof.
      destruct (walk_more E) as (We & Ws & Wi & Wm & Wt & _ & _ & Wc & _).
      destruct i as [a hd e semi|a s sp b|a m semi|a ts]; cbn [trait_put walk_trait_item]; fold (walk_stmt E); fold (walk_expr E); fold (walk_mac E);
        try (apply fo_ret; reflexivity); apply fo_node; intros a' s1 s2 x x' HX; cbv beta iota.
      - eapply fo_bind; [apply We, HX|]. intros y y' [Hl _]. apply fo_ret. unfold alike_in. cbn [titoks]. fold etoks. rewrite Hl. reflexivity.
      - eapply fo_bind; [apply fo_stmts; [apply more_scope, more_fn, HX|apply Forall_forall; intros; apply Ws]|]. intros l l' Hl. apply fo_ret. unfold alike_in. cbn [titoks]. fold stoks. rewrite (in_flat _ _ _ Hl). reflexivity.
      - eapply fo_bind; [apply Wc, HX|]. intros y y' Hl. apply fo_ret. unfold alike_in in *. destruct y, y'. cbn [titoks mtoks] in *. congruence.
    Qed.
  End Put.
  Lemma expands_follows f g i j : follows (alike_in itoks) (walk_item E (ctx_new f) i) (walk_item E (ctx_new g) j) ->
    forall out, expands E f i out -> exists out', expands E g j out' /\ itoks out' = itoks out.
  Proof. intros H out [cnt Hx]. destruct (H _ _ _ Hx) as (b & Hb & HR). exists b. split; [exists cnt; exact Hb|symmetry; exact HR]. Qed.

  (** a flavor named on the item is the flavor at the root *)
  Lemma flavor_more f g : NoDup (keys (fl_bindings f)) -> NoDup (keys (fl_bindings g)) -> incl (keys (fl_bindings f)) (keys (fl_bindings g)) ->
    more (ctx_new g) (updated_by_inert_attr (ctx_new f) (after [EvFlavor g])).
  Proof.
    intros Hf Hg Hi. constructor; try reflexivity; try assumption.
    - exists [fl_method f]. reflexivity.
    - intros x. cbn [updated_by_inert_attr cx_bindings ctx_new fval field_new]. rewrite merged_val, after_get. cbn [flat_map ev_binds]. rewrite app_nil_r, last_get_nodup by assumption.
      destruct (mget x (fl_bindings g)) eqn:Hx; [reflexivity|]. cbn [field_new fval]. destruct (mget x (fl_bindings f)) eqn:Hy; [|reflexivity]. exfalso.
      apply mget_none in Hx. apply Hx, Hi. destruct (in_dec string_dec x (keys (fl_bindings f))) as [Hin|Hno]; [exact Hin|]. apply mget_none in Hno. congruence.
    - cbn [updated_by_inert_attr cx_bindings]. apply merged_nodup, Hf.
  Qed.
  Lemma flavor_shift f g at_ i o out : node_events (ev_attr E) [at_] [EvFlavor g] -> NoDup (keys (fl_bindings f)) -> NoDup (keys (fl_bindings g)) ->
    incl (keys (fl_bindings f)) (keys (fl_bindings g)) -> node_events (ev_attr E) (own i) o -> apart [EvFlavor g] o ->
    expands E g i out -> exists out', expands E f (give [at_] i) out' /\ itoks out' = itoks out.
  Proof.
    intros Ha Hf Hg Hi Ho HA. apply expands_follows. rewrite <- (put_own i) at 1. rewrite <- put_give.
    apply put_follows with (o1 := o) (o2 := [EvFlavor g] ++ o).
    - symmetry. apply foreign_hooq. inversion Ha as [| |? ? ? ? ? He]; subst; [constructor; [assumption|constructor]|inversion He].
    - exact Ho.
    - apply events_app; assumption.
    - eapply more_trans; [apply more_updated, (flavor_more f g Hf Hg Hi)|]. apply two_one; assumption.
  Qed.

  (** a setting of the container is a setting of its members *)
  Section Members.
    Variables (f : fcore) (x a : list attr) (es : list event).
    Hypothesis HN : NoDup (keys (fl_bindings f)).
    Hypothesis HX : all_hooq x.
    Hypothesis Hx : node_events (ev_attr E) x es.
    Hypothesis Ha : node_events (ev_attr E) a [].
    Let near := updated_by_inert_attr (ctx_new f) (after es).
    Lemma near_handle : exists s, handle_inert_attrs (ev_attr E) (x ++ a) (ctx_new f) = Ok (foreign a, s, near).
    Proof.
      pose proof (handle_after _ _ (ctx_new f) (events_app _ _ _ _ _ Hx Ha)) as H. rewrite app_nil_r in H. rewrite (foreign_hooq _ _ HX) in H. eexists. exact H.
    Qed.
    Lemma far_handle : exists s, handle_inert_attrs (ev_attr E) a (ctx_new f) = Ok (foreign a, s, ctx_new f).
    Proof. eexists. exact (handle_after _ _ (ctx_new f) Ha). Qed.
    Lemma fo_container {A B} (R : A -> A -> Prop) (Q : B -> B -> Prop) (w : ctx -> A -> M A) (mk : list attr -> list A -> B) (g : A -> A) l :
      (forall l l', Forall2 R l l' -> Q (mk (foreign a) l) (mk (foreign a) l')) ->
      (Forall (fun m => follows R (w near m) (w (ctx_new f) (g m))) l ->
       follows Q (bind (handle E (x ++ a) (ctx_new f)) (fun '(a', _, c') => bind (mapM (w c') l) (fun l' => ret (mk a' l'))))
                 (bind (handle E a (ctx_new f)) (fun '(a', _, c') => bind (mapM (w c') (map g l)) (fun l' => ret (mk a' l'))))) /\
      (Forall (fun m => follows R (w (ctx_new f) (g m)) (w near m)) l ->
       follows Q (bind (handle E a (ctx_new f)) (fun '(a', _, c') => bind (mapM (w c') (map g l)) (fun l' => ret (mk a' l'))))
                 (bind (handle E (x ++ a) (ctx_new f)) (fun '(a', _, c') => bind (mapM (w c') l) (fun l' => ret (mk a' l'))))).
    Proof.
      intros HQ. destruct near_handle as [s1 H1], far_handle as [s2 H2].
      assert (Hmap : forall c l', mapM (w c) (map g l') = mapM (fun m => w c (g m)) l').
      { intros c l'. induction l' as [|y l' IH]; [reflexivity|]. cbn [map mapM]. rewrite IH. reflexivity. }
      split; intros HF n b k; unfold bind at 1 3, handle, lift; rewrite H1, H2, Hmap; intros Hb.
      - refine (fo_bind (Forall2 R) Q _ _ _ _ (fo_map R _ _ l HF) _ n b k Hb). intros l1 l2 Hl. apply fo_ret, HQ, Hl.
      - refine (fo_bind (Forall2 R) Q _ _ _ _ (fo_map R _ _ l HF) _ n b k Hb). intros l1 l2 Hl. apply fo_ret, HQ, Hl.
    Qed.
    Lemma member_more o : apart es o -> more (updated_by_inert_attr near (after o)) (updated_by_inert_attr (ctx_new f) (after (es ++ o))) /\
      more (updated_by_inert_attr (ctx_new f) (after (es ++ o))) (updated_by_inert_attr near (after o)).
    Proof. intros HA. split; [apply two_one|apply one_two]; assumption. Qed.
    Lemma item_member i o : node_events (ev_attr E) (own i) o -> apart es o ->
      follows (alike_in itoks) (walk_item E near i) (walk_item E (ctx_new f) (give x i)) /\ follows (alike_in itoks) (walk_item E (ctx_new f) (give x i)) (walk_item E near i).
    Proof.
      intros Ho HA. destruct (member_more o HA) as [M1 M2]. pose proof (foreign_hooq x (own i) HX) as HF. pose proof (events_app _ _ _ _ _ Hx Ho) as Hxo.
      rewrite <- (put_own i) at 1 4. rewrite <- put_give. split; [apply put_follows with (o1 := o) (o2 := es ++ o)|apply put_follows with (o1 := es ++ o) (o2 := o)]; auto.
    Qed.
    Lemma impl_member i o : node_events (ev_attr E) (impl_own i) o -> apart es o ->
      follows (alike_in iitoks) (walk_impl_item E near i) (walk_impl_item E (ctx_new f) (impl_give x i)) /\ follows (alike_in iitoks) (walk_impl_item E (ctx_new f) (impl_give x i)) (walk_impl_item E near i).
    Proof.
      intros Ho HA. destruct (member_more o HA) as [M1 M2]. pose proof (foreign_hooq x (impl_own i) HX) as HF. pose proof (events_app _ _ _ _ _ Hx Ho) as Hxo.
      rewrite <- (impl_put_own i) at 1 4. rewrite <- impl_put_give. split; [apply impl_put_follows with (o1 := o) (o2 := es ++ o)|apply impl_put_follows with (o1 := es ++ o) (o2 := o)]; auto.
    Qed.
    Lemma trait_member i o : node_events (ev_attr E) (trait_own i) o -> apart es o ->
      follows (alike_in titoks) (walk_trait_item E near i) (walk_trait_item E (ctx_new f) (trait_give x i)) /\ follows (alike_in titoks) (walk_trait_item E (ctx_new f) (trait_give x i)) (walk_trait_item E near i).
    Proof.
      intros Ho HA. destruct (member_more o HA) as [M1 M2]. pose proof (foreign_hooq x (trait_own i) HX) as HF. pose proof (events_app _ _ _ _ _ Hx Ho) as Hxo.
      rewrite <- (trait_put_own i) at 1 4. rewrite <- trait_put_give. split; [apply trait_put_follows with (o1 := o) (o2 := es ++ o)|apply trait_put_follows with (o1 := es ++ o) (o2 := o)]; auto.
    Qed.
    Lemma mod_shift hd sp l : Forall (fun i => exists o, node_events (ev_attr E) (own i) o /\ apart es o) l ->
      (forall out, expands E f (IMod (x ++ a) hd sp l) out -> exists out', expands E f (IMod a hd sp (map (give x) l)) out' /\ itoks out' = itoks out) /\
      (forall out, expands E f (IMod a hd sp (map (give x) l)) out -> exists out', expands E f (IMod (x ++ a) hd sp l) out' /\ itoks out' = itoks out).
    Proof.
      intros HF. destruct (fo_container (alike_in itoks) (alike_in itoks) (walk_item E) (fun a' l' => IMod a' hd sp l') (give x) l) as [C1 C2].
      { intros l1 l2 Hl. unfold alike_in. cbn [itoks]. fold itoks. rewrite (in_flat _ _ _ Hl). reflexivity. }
      split; apply expands_follows; cbn [walk_item]; fold (walk_item E); [apply C1|apply C2]; (eapply Forall_impl; [|exact HF]); intros i (o & Ho & HA); apply (item_member i o Ho HA).
    Qed.
    Lemma impl_shift hd sp l : Forall (fun i => exists o, node_events (ev_attr E) (impl_own i) o /\ apart es o) l ->
      (forall out, expands E f (IImpl (x ++ a) hd sp l) out -> exists out', expands E f (IImpl a hd sp (map (impl_give x) l)) out' /\ itoks out' = itoks out) /\
      (forall out, expands E f (IImpl a hd sp (map (impl_give x) l)) out -> exists out', expands E f (IImpl (x ++ a) hd sp l) out' /\ itoks out' = itoks out).
    Proof.
      intros HF. destruct (fo_container (alike_in iitoks) (alike_in itoks) (walk_impl_item E) (fun a' l' => IImpl a' hd sp l') (impl_give x) l) as [C1 C2].
      { intros l1 l2 Hl. unfold alike_in. cbn [itoks]. fold iitoks. rewrite (in_flat _ _ _ Hl). reflexivity. }
      split; apply expands_follows; cbn [walk_item]; fold (walk_impl_item E); [apply C1|apply C2]; (eapply Forall_impl; [|exact HF]); intros i (o & Ho & HA); apply (impl_member i o Ho HA).
    Qed.
    Lemma trait_shift hd sp l : Forall (fun i => exists o, node_events (ev_attr E) (trait_own i) o /\ apart es o) l ->
      (forall out, expands E f (ITrait (x ++ a) hd sp l) out -> exists out', expands E f (ITrait a hd sp (map (trait_give x) l)) out' /\ itoks out' = itoks out) /\
      (forall out, expands E f (ITrait a hd sp (map (trait_give x) l)) out -> exists out', expands E f (ITrait (x ++ a) hd sp l) out' /\ itoks out' = itoks out).
    Proof.
      intros HF. destruct (fo_container (alike_in titoks) (alike_in itoks) (walk_trait_item E) (fun a' l' => ITrait a' hd sp l') (trait_give x) l) as [C1 C2].
      { intros l1 l2 Hl. unfold alike_in. cbn [itoks]. fold titoks. rewrite (in_flat _ _ _ Hl). reflexivity. }
      split; apply expands_follows; cbn [walk_item]; fold (walk_trait_item E); [apply C1|apply C2]; (eapply Forall_impl; [|exact HF]); intros i (o & Ho & HA); apply (trait_member i o Ho HA).
    Qed.
  End Members.
End Items.
