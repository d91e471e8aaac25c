(** What a walk produces does not depend on where the counters start, if no template in effect mentions them.  *)
From Coq Require Import String Ascii Bool Arith Lia List.
From Verif Require Import Base Tokens Method Paths Context Flavor Attrs Syntax SyntaxInd Render Walker RootAttr RenderSpec RenderProofs RenderVarProofs AttrSpec SiteSpec ProgSpec WalkFacts BareProofs SiteProofs SettingSpec SettingProofs WalkSpec CountSpec.
Import ListNotations.
Open Scope string_scope.
Open Scope list_scope.
Open Scope monad_scope.

(** * Tokens *)
Definition T_expr (e : expr) := etoks (forget e) = etoks e.
Definition T_stmt (e : stmt) := stoks (stmt_forget e) = stoks e.
Definition T_item (e : item) := itoks (item_forget e) = itoks e.
Definition T_impl (e : impl_item) := iitoks (impl_forget e) = iitoks e.
Definition T_trait (e : trait_item) := titoks (trait_forget e) = titoks e.
Definition T_arm (e : arm) := armtoks (arm_forget e) = armtoks e.
Definition T_field (e : fieldv) := fieldtoks (field_forget e) = fieldtoks e.
Definition T_mac (e : mac) := mtoks (mac_forget e) = mtoks e.
Definition T_ev (e : evaluable) := vtoks (ev_forget e) = vtoks e.
Lemma flat_same {A B} (g : A -> list B) (h : A -> A) l : Forall (fun x => g (h x) = g x) l -> flat_map g (map h l) = flat_map g l.
Proof. induction 1 as [|x l Hx Hl IH]; [reflexivity|]. cbn [map flat_map]. now rewrite Hx, IH. Qed.
Lemma map_same {A B} (g : A -> B) (h : A -> A) l : Forall (fun x => g (h x) = g x) l -> map g (map h l) = map g l.
Proof. induction 1 as [|x l Hx Hl IH]; [reflexivity|]. cbn [map]. now rewrite Hx, IH. Qed.
Lemma opt_same {A} (g : A -> list tt) (h : A -> A) o : optP (fun x => g (h x) = g x) o -> opt_toks g (option_map h o) = opt_toks g o.
Proof. destruct o; cbn; auto. Qed.
Lemma forget_toks : (forall x, T_expr x) /\ (forall x, T_stmt x) /\ (forall x, T_item x) /\ (forall x, T_impl x) /\ (forall x, T_trait x) /\
  (forall x, T_arm x) /\ (forall x, T_field x) /\ (forall x, T_mac x) /\ (forall x, T_ev x).
Proof.
  apply syntax_ind2; intros.
  all: unfold T_expr, T_stmt, T_item, T_impl, T_trait, T_arm, T_field, T_mac, T_ev in *.
  all: try (cbn [forget stmt_forget item_forget impl_forget trait_forget arm_forget field_forget ev_forget etoks stoks itoks iitoks titoks armtoks fieldtoks vtoks];
    repeat match goal with
    | H : _ (forget ?e) = _ |- _ => rewrite H; clear H
    | H : _ (mac_forget ?e) = _ |- _ => rewrite H; clear H
    | H : _ (item_forget ?e) = _ |- _ => rewrite H; clear H
    | H : _ (stmt_forget ?e) = _ |- _ => rewrite H; clear H
    | H : Forall (fun _ => _ = _) ?l |- _ => first [rewrite (flat_same _ _ _ H) | rewrite (map_same _ _ _ H)]; clear H
    | H : optP (fun _ => _ = _) ?l |- _ => rewrite (opt_same _ _ _ H); clear H
    end; reflexivity).
  - destruct m as [p d sp ts v]. destruct name, v; reflexivity.
  - destruct view; reflexivity.
Qed.
Lemma forget_etoks a b : forget a = forget b -> etoks a = etoks b.
Proof. intros H. rewrite <- (proj1 forget_toks a), <- (proj1 forget_toks b), H. reflexivity. Qed.
Lemma forget_itoks a b : item_forget a = item_forget b -> itoks a = itoks b.
Proof. intros H. rewrite <- (proj1 (proj2 (proj2 forget_toks)) a), <- (proj1 (proj2 (proj2 forget_toks)) b), H. reflexivity. Qed.
Lemma forget_vtoks a b : map ev_forget a = map ev_forget b -> flat_map vtoks a = flat_map vtoks b.
Proof.
  revert b. induction a as [|x a IH]; intros [|y b] H; cbn [map] in H; try discriminate; [reflexivity|]. injection H as H1 H2. cbn [flat_map].
  rewrite (IH _ H2). f_equal. pose proof (proj2 (proj2 (proj2 (proj2 (proj2 (proj2 (proj2 (proj2 forget_toks)))))))) as HT. rewrite <- (HT x), <- (HT y), H1. reflexivity.
Qed.
Lemma forget_call e : call_path (forget e) = call_path e.
Proof. destruct e; try reflexivity. unfold call_path. cbn [forget seen]. destruct e; reflexivity. Qed.
Lemma forget_check c a b : forget a = forget b -> target_call_check c a = target_call_check c b.
Proof. intros H. unfold target_call_check. rewrite <- (forget_call a), <- (forget_call b), H. reflexivity. Qed.
Lemma forget_mark l sp e : forget (mark_consumed l sp e) = mark_consumed l sp (forget e).
Proof. destruct e; reflexivity. Qed.

(** * Two runs that differ in the counters only *)
Definition sim {A} (R : A -> A -> Prop) (m1 m2 : M A) : Prop :=
  forall n1 n2, match m1 n1, m2 n2 with
                | Ok (a, _), Ok (b, _) => R a b
                | Err x, Err y => x = y
                | Panic x, Panic y => x = y
                | _, _ => False
                end.
Definition eqf {A B} (g : A -> B) (a b : A) : Prop := g a = g b.
Lemma sim_ret {A} (R : A -> A -> Prop) a b : R a b -> sim R (ret a) (ret b).
Proof. intros H n1 n2. exact H. Qed.
Lemma sim_bind {A B} (R : A -> A -> Prop) (Q : B -> B -> Prop) m1 m2 f1 f2 : sim R m1 m2 -> (forall a b, R a b -> sim Q (f1 a) (f2 b)) -> sim Q (bind m1 f1) (bind m2 f2).
Proof.
  intros H HF n1 n2. unfold bind. specialize (H n1 n2). destruct (m1 n1) as [[a k1]|x|x], (m2 n2) as [[b k2]|y|y]; try contradiction; try exact H. apply HF, H.
Qed.
Lemma sim_mapM {A B} (g : A -> B) (f : A -> M A) l : Forall (fun x => sim (eqf g) (f x) (f x)) l -> sim (eqf (map g)) (mapM f l) (mapM f l).
Proof.
  induction 1 as [|x l Hx Hl IH]; cbn [mapM]; [apply sim_ret; reflexivity|]. eapply sim_bind; [exact Hx|]. intros a b Hab. eapply sim_bind; [exact IH|].
  intros l1 l2 Hll. apply sim_ret. unfold eqf in *. cbn [map]. congruence.
Qed.
Lemma sim_mapiM {A B} (g : A -> B) (f : nat -> A -> M A) l : Forall (fun x => forall i, sim (eqf g) (f i x) (f i x)) l -> forall i, sim (eqf (map g)) (mapiM f i l) (mapiM f i l).
Proof.
  induction 1 as [|x l Hx Hl IH]; intros i; cbn [mapiM]; [apply sim_ret; reflexivity|]. eapply sim_bind; [apply Hx|]. intros a b Hab. eapply sim_bind; [apply IH|].
  intros l1 l2 Hll. apply sim_ret. unfold eqf in *. cbn [map]. congruence.
Qed.
Lemma sim_opt {A B} (g : A -> B) (f : A -> M A) o : optP (fun x => sim (eqf g) (f x) (f x)) o -> sim (eqf (option_map g)) (optM f o) (optM f o).
Proof.
  destruct o; cbn [optM optP]; intros H; [|apply sim_ret; reflexivity]. eapply sim_bind; [exact H|]. intros x y Hxy. apply sim_ret. unfold eqf in *. cbn [option_map]. congruence.
Qed.

Section Sim.
  Variable E : env.
  Variable c0 : ctx.
  Local Notation ctx_at := (ctx_at E c0).
  Local Notation enters := (enters E c0).

  Definition indep (c : ctx) : Prop := forall k n1 n2 src ets q, render_toks (ev_str E) c k n1 src ets q = render_toks (ev_str E) c k n2 src ets q.
  Definition calm (s : site) : Prop := forall c, ctx_at (s_frames s) c -> is_skipped c = false -> is_hook_target c (kind_of (s_kind s)) = true -> indep c.

  Lemma sim_handle {B} (Q : B -> B -> Prop) a c f1 f2 :
    (forall s c', handle_inert_attrs (ev_attr E) a c = Ok (foreign a, s, c') -> sim Q (f1 (foreign a, s, c')) (f2 (foreign a, s, c'))) ->
    sim Q (bind (handle E a c) f1) (bind (handle E a c) f2).
  Proof.
    intros H. eapply (sim_bind (fun x y => x = y /\ exists s c', x = (foreign a, s, c') /\ handle_inert_attrs (ev_attr E) a c = Ok x)).
    - intros n1 n2. destruct (handle E a c n1) as [[x m1]|x|x] eqn:E1; destruct (handle E a c n2) as [[y m2]|y|y] eqn:E2;
        try (unfold handle, lift in E1, E2; destruct (handle_inert_attrs _ _ _) as [?|?|?]; congruence).
      destruct x as [[k s] c']. apply handle_Ok in E1. destruct E1 as (_ & -> & H1). destruct y as [[k2 s2] c2]. apply handle_Ok in E2. destruct E2 as (_ & -> & H2).
      rewrite H1 in H2. inversion H2; subst. eauto 6.
    - intros x y (<- & s & c' & -> & Hx). apply H, Hx.
  Qed.
  Lemma sim_hook apply e1 e2 src k q1 q2 c : forget e1 = forget e2 -> q1 = q2 -> (apply = true -> is_hook_target c k = true -> indep c) ->
    sim (fun x y => forget (fst x) = forget (fst y) /\ snd x = snd y) (hook_expr E apply e1 src k q1 c) (hook_expr E apply e2 src k q2 c).
  Proof.
    intros He <- Hi n1 n2. unfold hook_expr. destruct apply; cbn [negb]; [|auto]. destruct (is_hook_target c k); cbn [negb]; [|auto].
    unfold render_expr. rewrite (forget_etoks _ _ He). rewrite (Hi eq_refl eq_refl k (get_count k (count_up k n1)) (get_count k (count_up k n2))).
    destruct (render_toks _ _ _ _ _ _ _); cbn [bindR]; auto. destruct (ev_parse E _); auto. cbn [fst snd]. split; [|reflexivity].
    cbn [forget without_count h_kind h_span h_source h_ctx h_consumed]. unfold without_count. cbn. rewrite He. reflexivity.
  Qed.

  Definition S_expr (e : expr) : Prop := forall ov c fr, enters ov c e fr -> written (subs e) -> Forall calm (sites fr e) ->
    sim (eqf forget) (walk_expr E ov c e) (walk_expr E ov c e).
  Definition S_stmt (s : stmt) : Prop := forall tk c fr, ctx_at fr c -> written (stmt_subs s) -> Forall calm (stmt_sites (tk_opt tk) fr s) ->
    sim (eqf stmt_forget) (walk_stmt E tk c s) (walk_stmt E tk c s).
  Definition S_item (i : item) : Prop := forall c fr, ctx_at fr c -> written (item_subs i) -> Forall calm (item_sites fr i) ->
    sim (eqf item_forget) (walk_item E c i) (walk_item E c i).
  Definition S_impl (i : impl_item) : Prop := forall c fr, ctx_at fr c -> written (impl_subs i) -> Forall calm (impl_sites fr i) ->
    sim (eqf impl_forget) (walk_impl_item E c i) (walk_impl_item E c i).
  Definition S_trait (i : trait_item) : Prop := forall c fr, ctx_at fr c -> written (trait_subs i) -> Forall calm (trait_sites fr i) ->
    sim (eqf trait_forget) (walk_trait_item E c i) (walk_trait_item E c i).
  Definition S_arm (i : arm) : Prop := forall c fr, ctx_at fr c -> written (arm_subs i) -> Forall calm (arm_sites fr i) ->
    sim (eqf arm_forget) (walk_arm E c i) (walk_arm E c i).
  Definition S_field (i : fieldv) : Prop := forall c fr, ctx_at fr c -> written (field_subs i) -> Forall calm (field_sites fr i) ->
    sim (eqf field_forget) (walk_field E c i) (walk_field E c i).
  Definition S_mac (i : mac) : Prop := forall c fr, ctx_at fr c -> written (mac_subs i) -> Forall calm (mac_sites fr i) ->
    sim (eqf mac_forget) (walk_mac E c i) (walk_mac E c i).
  Definition S_ev (i : evaluable) : Prop := forall c fr, ctx_at fr c -> written (ev_subs i) -> Forall calm (ev_sites fr i) ->
    sim (eqf ev_forget) (walk_evaluable E c i) (walk_evaluable E c i).

  Lemma sim_flat {A B} (f : A -> M A) (g : A -> B) (st : A -> list site) (sb : A -> list expr) (R : A -> Prop) l :
    Forall R l -> Forall (fun x => written (sb x)) l -> Forall calm (flat_map st l) ->
    (forall x, R x -> written (sb x) -> Forall calm (st x) -> sim (eqf g) (f x) (f x)) -> sim (eqf (map g)) (mapM f l) (mapM f l).
  Proof.
    intros HR HW HC HS. apply sim_mapM. induction HR as [|x l Hx Hl IH]; [constructor|]. cbn [flat_map] in HC. apply Forall_app in HC. destruct HC as [HC1 HC2].
    inversion HW; subst. constructor; auto.
  Qed.
  Lemma sim_block tk b c fr : ctx_at fr c -> Forall S_stmt b -> Forall (fun x => written (stmt_subs x)) b ->
    Forall calm (last_map (stmt_sites None fr) (stmt_sites (tk_opt tk) fr) b) -> forall n i, n = i + length b ->
    sim (eqf (map stmt_forget)) (mapiM (fun j s => walk_stmt E (pos_kind tk n j) c s) i b) (mapiM (fun j s => walk_stmt E (pos_kind tk n j) c s) i b).
  Proof.
    intros Hc HF. induction HF as [|s b Hs HF IH]; intros HW HC n i Hn; cbn [mapiM]; [apply sim_ret; reflexivity|].
    inversion HW; subst. eapply (sim_bind (eqf stmt_forget)); [|intros x y Hxy; eapply (sim_bind (eqf (map stmt_forget)))].
    - unfold pos_kind. destruct b as [|s2 b].
      + cbn [length]. replace (i + 1 - 1) with i by lia. rewrite Nat.eqb_refl. eapply Hs; [eassumption|assumption|exact HC].
      + destruct (Nat.eqb_spec i (i + length (s :: s2 :: b) - 1)) as [He|_]; [cbn [length] in He; lia|].
        change (Forall calm (stmt_sites None fr s ++ last_map (stmt_sites None fr) (stmt_sites (tk_opt tk) fr) (s2 :: b))) in HC.
        apply Forall_app in HC. eapply Hs; [eassumption|assumption|apply HC].
    - destruct b as [|s2 b]; [apply IH; [constructor|constructor|cbn [length]; lia]|].
      change (Forall calm (stmt_sites None fr s ++ last_map (stmt_sites None fr) (stmt_sites (tk_opt tk) fr) (s2 :: b))) in HC.
      apply Forall_app in HC. apply IH; [assumption|apply HC|cbn [length]; lia].
    - intros l1 l2 Hl. apply sim_ret. unfold eqf in *. cbn [map]. congruence.
  Qed.
  Lemma sim_optional c fr o : ctx_at fr c -> optP S_expr o -> optP (fun x => written (subs x)) o -> Forall calm (opt_list (sites fr) o) ->
    sim (eqf (option_map forget)) (optM (walk_expr E None c) o) (optM (walk_expr E None c) o).
  Proof.
    intros Hc HS HW HC. apply sim_opt. destruct o; cbn [optP opt_list] in *; [|exact I]. eapply HS; [apply enters_none, Hc|assumption|assumption].
  Qed.
  Lemma sim_tail tk e c fr : ctx_at fr c -> S_expr e -> written (subs e) -> Forall calm (at_tail (sites fr) (is_fn_tail tk) fr e) ->
    sim (eqf forget) (handle_tail_with E (fun ov c' => walk_expr E ov c' e) e c tk) (handle_tail_with E (fun ov c' => walk_expr E ov c' e) e c tk).
  Proof.
    intros Hc HS HW HC. unfold handle_tail_with. destruct (get_attrs e) as [a|] eqn:Ea; [|apply sim_ret; reflexivity].
    unfold at_tail in HC. destruct (written_on TailExpr e HW) as (Hh & Hu & Hun). rewrite Hu, Hun, Hh in HC. apply Forall_app in HC. destruct HC as [HC1 HC2].
    apply sim_handle. intros s c' Hh'. cbv beta iota. eapply (sim_bind (eqf forget)).
    - eapply (HS (Some (foreign a)) c' fr); [right; exists a, s, c; auto|assumption|assumption].
    - intros x y Hxy. destruct (negb (is_target tk)); [apply sim_ret, Hxy|]. rewrite (forget_check c' x y Hxy). destruct (target_call_check c' y) as [t nt].
      destruct (_ || _); [|apply sim_ret, Hxy]. eapply sim_bind.
      + apply sim_hook; [exact Hxy|rewrite (forget_etoks _ _ Hxy); reflexivity|]. intros Hs Ht.
        replace (verbatim e) with false in HC2 by (destruct e; try reflexivity; discriminate). inversion HC2 as [|? ? H1 _]; subst. apply H1.
        * cbn [s_frames]. unfold attrs_of. rewrite Ea. eapply at_attrs; eassumption.
        * destruct (handle_again E _ _ _ _ _ Hh') as [_ <-]. destruct s; [discriminate|reflexivity].
        * exact Ht.
      + intros [x' ?] [y' ?] [H1 H2]. apply sim_ret. exact H1.
  Qed.

  Ltac wsplit :=
    repeat match goal with
    | H : written (_ ++ _) |- _ => apply written_app in H; destruct H
    | H : written (flat_map _ _) |- _ => apply written_flat in H
    | H : written (opt_list subs _) |- _ => apply written_opt in H
    end.
  Ltac csplit := repeat match goal with H : Forall calm (_ ++ _) |- _ => apply Forall_app in H; destruct H end.
  Ltac scbn H :=
    cbn [subs stmt_subs item_subs impl_subs trait_subs arm_subs field_subs mac_subs ev_subs] in H;
    try fold subs in H; try fold stmt_subs in H; try fold item_subs in H; try fold impl_subs in H; try fold trait_subs in H;
    try fold arm_subs in H; try fold field_subs in H; try fold mac_subs in H; try fold ev_subs in H.
  Ltac dcbn H :=
    cbn [sites stmt_sites item_sites impl_sites trait_sites arm_sites field_sites mac_sites ev_sites] in H;
    try fold sites in H; try fold stmt_sites in H; try fold item_sites in H; try fold impl_sites in H; try fold trait_sites in H; try fold arm_sites in H; try fold field_sites in H;
    try fold mac_sites in H; try fold ev_sites in H.
  Ltac gcbn :=
    cbn [walk_expr walk_stmt walk_item walk_impl_item walk_trait_item walk_arm walk_field walk_mac walk_evaluable];
    try fold (walk_expr E); try fold (walk_stmt E); try fold (walk_item E); try fold (walk_impl_item E);
    try fold (walk_trait_item E); try fold (walk_arm E); try fold (walk_field E); try fold (walk_mac E);
    try fold (walk_evaluable E).
  Ltac actx :=
    repeat match goal with
    | |- enters None _ _ _ => apply enters_none
    | H : ctx_at ?f ?c |- ctx_at ?f ?c => exact H
    | |- ctx_at (FScope :: _) _ => apply at_scope
    | |- ctx_at (FFn _ :: _) _ => apply at_fn
    | |- ctx_at (FClosure _ _ _ :: _) _ => apply at_closure
    | H : handle_inert_attrs _ ?a ?c0 = Ok (_, _, ?c) |- ctx_at (FAttrs ?a :: _) ?c => eapply at_attrs; [|exact H]
    end.
  Ltac now_ctx :=
    match goal with
    | He : enters ?ov ?c ?e ?fr, H : handle_inert_attrs _ (attrs_now ?ov ?a) ?c = Ok _ |- _ =>
        let h1 := fresh in let h2 := fresh in let h3 := fresh "Hskip" in
        destruct (enters_now E c0 ov c e fr a _ _ _ He eq_refl H) as (h1 & h2 & h3); rewrite h2 in *
    | _ => idtac
    end.
  Ltac walking :=
    first
    [ match goal with H : S_expr ?e |- sim _ (walk_expr _ _ _ ?e) _ => eapply H; [|assumption|eassumption]; actx end
    | match goal with H : S_mac ?e |- sim _ (walk_mac _ _ ?e) _ => eapply H; [|assumption|eassumption]; actx end
    | match goal with H : S_item ?e |- sim _ (walk_item _ _ ?e) _ => eapply H; [|assumption|eassumption]; actx end
    | match goal with H : S_stmt ?e |- sim _ (walk_stmt _ NotTarget _ ?e) _ => eapply H; [|assumption|eassumption]; actx end
    | match goal with |- sim _ (optM _ _) _ => eapply sim_optional; [|eassumption|assumption|eassumption]; actx end
    | match goal with |- sim _ (mapiM _ 0 _) _ => eapply sim_block; [|eassumption|assumption|eassumption|reflexivity]; actx end
    | match goal with HR : Forall ?R ?l, HW : Forall (fun _ => written _) ?l |- sim _ (mapM _ ?l) _ =>
        match R with (fun _ => written _) => fail 1 | _ => idtac end;
        eapply (sim_flat _ _ _ _ R); [exact HR|exact HW|eassumption|]; cbv beta;
        let h1 := fresh in let h2 := fresh in let h3 := fresh in intros ? h1 h2 h3; eapply h1; [|exact h2|exact h3]; actx end ].
  Ltac go :=
    repeat match goal with
    | |- sim _ (bind (handle _ _ _) _) _ => apply sim_handle; intros; cbv beta iota; now_ctx
    | |- sim _ (bind _ _) _ => eapply sim_bind; [walking|intros; cbv beta iota]
    | |- sim _ (ret _) _ => apply sim_ret
    end.
  Ltac fin :=
    unfold eqf in *; cbn [option_map forget stmt_forget item_forget impl_forget trait_forget arm_forget field_forget mac_forget ev_forget]; congruence.

  Lemma sim_all : (forall x, S_expr x) /\ (forall x, S_stmt x) /\ (forall x, S_item x) /\ (forall x, S_impl x) /\ (forall x, S_trait x) /\
    (forall x, S_arm x) /\ (forall x, S_field x) /\ (forall x, S_mac x) /\ (forall x, S_ev x).
  Proof.
    apply syntax_ind2; intros.
    all: match goal with
         | |- S_stmt _ => intros tk c1 fr Hc Hw HC
         | |- S_expr _ => intros ov c1 fr Hc Hw HC
         | _ => intros c1 fr Hc Hw HC
         end; scbn Hw; dcbn HC; wsplit; csplit; gcbn.
    all: try solve [go; fin].
    - (* closure *)
      go. eapply (sim_bind (eqf forget)); [|intros; apply sim_ret; fin].
      set (c2 := update_fn_info _ _).
      assert (Hc2 : ctx_at (FClosure a hd out :: FAttrs a :: fr) c2) by (apply at_closure; assumption). clearbody c2.
      destruct body; try (eapply sim_tail; [exact Hc2|assumption|assumption|exact HC]).
      cbn [stmts_of] in *. match goal with H : written (subs _) |- _ => scbn H end. wsplit. go. fin.
    - (* return *)
      apply sim_handle. intros s c' Hh. cbv beta iota. now_ctx. destruct e as [e0|]; [|apply sim_ret; reflexivity].
      cbn [optP] in *. destruct (written_on Return e0 ltac:(assumption)) as (Hon & Hu & Hun). rewrite Hon, Hu, Hun in HC. csplit.
      eapply sim_bind; [walking|]. intros x y Hxy. rewrite (forget_check c' x y Hxy). destruct (target_call_check c' y) as [tt nt].
      destruct (_ || _); [|apply sim_ret; fin]. eapply sim_bind.
      + apply sim_hook; [exact Hxy|reflexivity|]. intros Hs Ht.
        match goal with H : Forall calm [_] |- _ => inversion H as [|? ? Hcalm _]; subst; apply Hcalm end; [assumption| |exact Ht].
        destruct (is_skipped c'); [discriminate|reflexivity].
      + intros [x' ?] [y' ?] [Hf Hf2]. cbn [fst snd] in *. apply sim_ret. unfold eqf. cbn [forget option_map]. congruence.
    - (* try *)
      apply sim_handle. intros s c' Hh. cbv beta iota. now_ctx.
      destruct (written_on Question e ltac:(assumption)) as (Hon & Hu & Hun). rewrite Hon, Hu, Hun in *. csplit.
      eapply sim_bind; [walking|]. intros x y Hxy. eapply sim_bind.
      + apply sim_hook; [exact Hxy|reflexivity|]. intros Hs Ht.
        match goal with H : Forall calm [_] |- _ => inversion H as [|? ? Hcalm _]; subst; apply Hcalm end; [assumption| |exact Ht].
        destruct (is_skipped c'); [discriminate|reflexivity].
      + intros [x' ?] [y' ?] [Hf Hf2]. cbn [fst snd] in *. subst. apply sim_ret. unfold eqf.
        match goal with |- context[if ?b then _ else _] => destruct b end; [rewrite !forget_mark; congruence|cbn [forget]; congruence].
    - (* expression statement *)
      destruct semi; [|destruct tk; cbn [is_target tk_opt] in *].
      + go. fin.
      + eapply sim_bind; [eapply sim_tail; eassumption|]. intros; go. fin.
      + eapply sim_bind; [eapply sim_tail; eassumption|]. intros; go. fin.
      + go. fin.
    - (* macro item *)
      destruct name; go; [reflexivity|]. fin.
    - (* arm *)
      go. eapply (sim_bind (eqf forget)); [|intros; go; fin].
      destruct body; first [walking | eapply sim_tail; eassumption].
    - (* macro call *)
      destruct (hook_in_macros c1) eqn:Em; cbn [negb]; [|apply sim_ret; reflexivity].
      destruct view as [l|]; [|apply sim_ret; reflexivity]. cbn [optP] in *. wsplit.
      assert (Hm : ctx_at (FMacro :: fr) c1) by (apply at_macro; assumption). go. unfold eqf in *. cbn [mac_forget].
      rewrite (forget_vtoks _ _ H0). congruence.
  Qed.
End Sim.

(** * Templates that do not mention a counter *)
Lemma loop_uses grp grp' var var' : forall ts flag, Forall (fun t => grp t = grp' t) ts ->
  (forall n, uses n (if flag : bool then TPunct "$" call_site :: ts else ts) -> var n = var' n) ->
  expand_loop grp var flag ts = expand_loop grp' var' flag ts.
Proof.
  induction ts as [|t r IH]; intros flag HF Hu; [reflexivity|]. inversion HF as [|? ? Ht HF']; subst.
  assert (Hn : expand_loop grp var false r = expand_loop grp' var' false r).
  { apply IH; [exact HF'|]. intros n Hn. apply Hu. destruct flag; [apply us_next|]; apply us_next; exact Hn. }
  destruct t as [s p|s p|l p|d ts p]; destruct flag; cbn [expand_loop]; try reflexivity.
  - rewrite Hn. rewrite (Hu s (us_here s _ _ _)). reflexivity.
  - rewrite Hn. reflexivity.
  - destruct (Ascii.eqb_spec s "$"); [|rewrite Hn; reflexivity]. subst s. apply IH; [exact HF'|].
    intros n Hus. apply Hu. inversion Hus; subst; [constructor|apply us_next; assumption].
  - rewrite Hn. reflexivity.
  - rewrite Hn, Ht. reflexivity.
Qed.
Lemma group_uses var var' t : (forall n d ts p, t = TGroup d ts p -> uses n ts -> var n = var' n) -> expand_group var t = expand_group var' t.
Proof.
  induction t as [s p|s p|l p|d ts p IH] using tt_ind'; intros Hu; try reflexivity. cbn [expand_group].
  rewrite (loop_uses _ (expand_group var') var var' ts false); [reflexivity| |intros n Hn; eapply Hu; [reflexivity|exact Hn]].
  rewrite Forall_forall in IH |- *. intros t Hin. apply IH; [exact Hin|]. intros n d2 ts2 p2 -> Hn. eapply Hu; [reflexivity|].
  clear - Hin Hn. induction ts as [|t ts IHl]; [destruct Hin|]. destruct Hin as [->|Hin]; [apply us_in; exact Hn|apply us_next; auto].
Qed.
Lemma with_uses var var' ts : (forall n, uses n ts -> var n = var' n) -> expand_with var ts = expand_with var' ts.
Proof.
  intros Hu. apply loop_uses; [|exact Hu]. rewrite Forall_forall. intros t Hin. apply group_uses. intros n d ts2 p -> Hn. apply Hu.
  clear - Hin Hn. induction ts as [|t ts IHl]; [destruct Hin|]. destruct Hin as [->|Hin]; [apply us_in; exact Hn|apply us_next; auto].
Qed.
Lemma var_count ts_str c k n1 n2 src ets q s n : ~ In n ["count"; "nth"; "hooq_meta"; "hooqmeta"] ->
  meta_var_toks ts_str c k n1 src ets q s n = meta_var_toks ts_str c k n2 src ets q s n.
Proof.
  intros H. unfold meta_var_toks. destruct (metavar_of n) as [[]|] eqn:Em; try reflexivity; exfalso; apply H;
    unfold metavar_of in Em; repeat match type of Em with (if ?b then _ else _) = _ => destruct b eqn:?; [try discriminate|] end; try discriminate.
  all: match goal with Hx : (_ || _)%bool = true |- _ => apply orb_true_iff in Hx; destruct Hx as [Hx|Hx]; apply String.eqb_eq in Hx; subst n end; cbn; auto.
Qed.
Lemma method_count ts_str c k n1 n2 src ets q : forall fm,
  (forall m n, In m (RenderSpec.chain fm) -> uses n (m_template m) -> ~ In n ["count"; "nth"; "hooq_meta"; "hooqmeta"]) ->
  expand_method ts_str c k n1 src ets q fm = expand_method ts_str c k n2 src ets q fm.
Proof.
  fix IH 1. intros [m anc] Hc. cbn [expand_method].
  assert (Ha : match anc with Some a => expand_method ts_str c k n1 src ets q a | None => Err ErrNoSoFar end =
               match anc with Some a => expand_method ts_str c k n2 src ets q a | None => Err ErrNoSoFar end).
  { destruct anc as [a|]; [|reflexivity]. apply IH. intros m0 n Hin. apply Hc. right. exact Hin. }
  rewrite Ha. apply with_uses. intros n Hn. apply var_count. eapply Hc; [left; reflexivity|exact Hn].
Qed.

Section Calm.
  Variable E : env.
  Variable f : fcore.
  Lemma countless_calm s : countless_at (ev_attr E) f s -> calm E (ctx_new f) s.
  Proof.
    intros H c Hc Hs Ht. destruct (at_trail E f (s_frames s) c Hc) as (tr & Htr & Hr & He).
    assert (Hsk : skipped tr = false).
    { pose proof (ie_skip _ _ _ He) as Hk. unfold is_skipped in Hs. rewrite Hk in Hs. destruct (skip_all_holds tr); [discriminate|]. destruct (skipped tr); [discriminate|reflexivity]. }
    specialize (H tr Htr Hr Hsk). intros k n1 n2 src ets q. unfold render_toks. erewrite method_count; [reflexivity|].
    intros m n Hin. rewrite (ie_methods _ _ _ He) in Hin. apply H, Hin.
  Qed.
End Calm.

(** * Siblings *)
Lemma sim_Ok {A} (R : A -> A -> Prop) m1 m2 n1 n2 a k1 : sim R m1 m2 -> m1 n1 = Ok (a, k1) -> exists b k2, m2 n2 = Ok (b, k2) /\ R a b.
Proof. intros H H1. specialize (H n1 n2). rewrite H1 in H. destruct (m2 n2) as [[b k2]|x|x]; try contradiction. eauto. Qed.
Lemma mapM_split {A B} (g : A -> B) (w : A -> M A) l : Forall (fun x => sim (eqf g) (w x) (w x)) l -> forall n l' n', mapM w l n = Ok (l', n') ->
  Forall2 (fun x x' => forall m, exists y m', w x m = Ok (y, m') /\ g y = g x') l l'.
Proof.
  intros HF n l' n' H. apply mapM_chain in H. induction H; [constructor|]. inversion HF as [|? ? Hs HF']; subst. constructor; [|auto].
  intros m. destruct (sim_Ok _ _ _ _ m _ _ Hs H) as (b & k & Hb & Hg). exists b, k. split; [exact Hb|]. symmetry. exact Hg.
Qed.
Lemma mapM_join {A B} (g : A -> B) (w : A -> M A) l : Forall (fun x => sim (eqf g) (w x) (w x)) l ->
  Forall (fun x => exists m y m', w x m = Ok (y, m')) l -> forall n, exists l' n', mapM w l n = Ok (l', n').
Proof.
  intros HF HW. induction HF as [|x l Hx HF IH]; intros n; [exists [], n; reflexivity|]. inversion HW as [|? ? (m & y & m' & Hy) HW']; subst.
  destruct (sim_Ok _ _ _ _ n _ _ Hx Hy) as (b & k & Hb & _). destruct (IH HW' k) as (l' & n' & Hl). exists (b :: l'), n'.
  cbn [mapM]. unfold bind. rewrite Hb, Hl. reflexivity.
Qed.
Lemma chain_nth {A B} (w : A -> M B) l : forall c l' c', WalkFacts.chain w c l l' c' -> forall i x x', nth_error l i = Some x -> nth_error l' i = Some x' -> exists n n', w x n = Ok (x', n').
Proof.
  intros c l' c' H. induction H; intros [|i] x0 x' H1 H2; try discriminate; cbn in *; [inversion H1; inversion H2; subst; eauto|eauto].
Qed.
Lemma forall2_more {A B} (P Q : A -> B -> Prop) l l' : (forall x y, P x y -> Q x y) -> Forall2 P l l' -> Forall2 Q l l'.
Proof. intros H. induction 1; constructor; auto. Qed.
Lemma forall_nth {A} (P : A -> Prop) l i x : Forall P l -> nth_error l i = Some x -> P x.
Proof. intros H Hn. rewrite Forall_forall in H. apply H. eapply nth_error_In, Hn. Qed.

Section Siblings.
  Variable E : env.
  Variable f : fcore.
  Definition part_subs (p : part) : list expr := match p with AnItem i => item_subs i | AnImpl i => impl_subs i | ATrait i => trait_subs i end.
  Definition walks (c : ctx) (p p' : part) : Prop :=
    match p, p' with
    | AnItem x, AnItem x' => exists n n', walk_item E c x n = Ok (x', n')
    | AnImpl x, AnImpl x' => exists n n', walk_impl_item E c x n = Ok (x', n')
    | ATrait x, ATrait x' => exists n n', walk_trait_item E c x n = Ok (x', n')
    | _, _ => False
    end.
  Lemma inside_walks it out fr p p' : expands E f it out -> source it -> inside it out fr p p' ->
    written (part_subs p) /\ exists c, ctx_at E (ctx_new f) fr c /\ walks c p p'.
  Proof.
    intros [cnt Hx] Hs H. induction H as [|fr a hd sp l a' hd' sp' l' n x x' H IH H1 H2|fr a hd sp l a' hd' sp' l' n x x' H IH H1 H2|fr a hd sp l a' hd' sp' l' n x x' H IH H1 H2].
    - split; [exact Hs|]. exists (ctx_new f). split; [constructor|]. cbn. eauto.
    - destruct IH as (Hw & c & Hc & n1 & n2 & Hwalk). wcbn E Hwalk. winv. split.
      { cbn [part_subs item_subs] in Hw. fold item_subs in Hw. apply written_flat in Hw. eapply (forall_nth _ _ _ _ Hw H1). }
      match goal with Hm : mapM _ _ _ = Ok _, Hh : handle_inert_attrs _ _ _ = Ok (_, _, ?c1) |- _ => exists c1; split; [eapply at_attrs; eassumption|]; apply mapM_chain in Hm; eapply chain_nth; eassumption end.
    - destruct IH as (Hw & c & Hc & n1 & n2 & Hwalk). wcbn E Hwalk. winv. split.
      { cbn [part_subs item_subs] in Hw. fold impl_subs in Hw. apply written_flat in Hw. eapply (forall_nth _ _ _ _ Hw H1). }
      match goal with Hm : mapM _ _ _ = Ok _, Hh : handle_inert_attrs _ _ _ = Ok (_, _, ?c1) |- _ => exists c1; split; [eapply at_attrs; eassumption|]; apply mapM_chain in Hm; eapply chain_nth; eassumption end.
    - destruct IH as (Hw & c & Hc & n1 & n2 & Hwalk). wcbn E Hwalk. winv. split.
      { cbn [part_subs item_subs] in Hw. fold trait_subs in Hw. apply written_flat in Hw. eapply (forall_nth _ _ _ _ Hw H1). }
      match goal with Hm : mapM _ _ _ = Ok _, Hh : handle_inert_attrs _ _ _ = Ok (_, _, ?c1) |- _ => exists c1; split; [eapply at_attrs; eassumption|]; apply mapM_chain in Hm; eapply chain_nth; eassumption end.
  Qed.
  Lemma one_ctx c0 fr : forall c c', ctx_at E c0 fr c -> ctx_at E c0 fr c' -> c = c'.
  Proof.
    induction fr as [|x fr IH]; intros c c' H H'; inversion H; subst; inversion H'; subst;
      repeat match goal with H1 : ctx_at E c0 fr ?c, H2 : ctx_at E c0 fr ?d |- _ => first [constr_eq c d; fail 1|pose proof (IH _ _ H1 H2); subst] end; congruence.
  Qed.
  Lemma walks_sim fr c p : ctx_at E (ctx_new f) fr c -> written (part_subs p) -> (forall s, In s (part_sites fr p) -> countless_at (ev_attr E) f s) ->
    match p with
    | AnItem x => sim (eqf item_forget) (walk_item E c x) (walk_item E c x)
    | AnImpl x => sim (eqf impl_forget) (walk_impl_item E c x) (walk_impl_item E c x)
    | ATrait x => sim (eqf trait_forget) (walk_trait_item E c x) (walk_trait_item E c x)
    end.
  Proof.
    intros Hc Hw Hs. assert (HC : Forall (calm E (ctx_new f)) (part_sites fr p)) by (apply Forall_forall; intros s Hi; apply countless_calm, Hs, Hi).
    destruct (sim_all E (ctx_new f)) as (_ & _ & Si & Sm & St & _). destruct p; [eapply Si|eapply Sm|eapply St]; eassumption.
  Qed.
  Lemma part_same p1 p2 : match p1, p2 with
    | AnItem x, AnItem y => item_forget x = item_forget y
    | AnImpl x, AnImpl y => impl_forget x = impl_forget y
    | ATrait x, ATrait y => trait_forget x = trait_forget y
    | _, _ => False end -> part_toks p1 = part_toks p2.
  Proof.
    destruct forget_toks as (_ & _ & Fi & Fm & Ft & _). destruct p1 as [x|x|x], p2 as [y|y|y]; try contradiction; intros H; cbn [part_toks].
    - rewrite <- (Fi x), <- (Fi y), H. reflexivity.
    - rewrite <- (Fm x), <- (Fm y), H. reflexivity.
    - rewrite <- (Ft x), <- (Ft y), H. reflexivity.
  Qed.
  Lemma same_inside it1 out1 it2 out2 fr p p1 p2 : expands E f it1 out1 -> source it1 -> inside it1 out1 fr p p1 ->
    expands E f it2 out2 -> source it2 -> inside it2 out2 fr p p2 -> (forall s, In s (part_sites fr p) -> countless_at (ev_attr E) f s) ->
    part_toks p1 = part_toks p2.
  Proof.
    intros Hx1 Hs1 Hi1 Hx2 Hs2 Hi2 HC. destruct (inside_walks _ _ _ _ _ Hx1 Hs1 Hi1) as (Hw & c & Hc & H1).
    destruct (inside_walks _ _ _ _ _ Hx2 Hs2 Hi2) as (_ & c' & Hc' & H2). rewrite <- (one_ctx _ _ _ _ Hc Hc') in H2.
    pose proof (walks_sim fr c p Hc Hw HC) as HS. apply part_same.
    destruct p as [x|x|x], p1 as [y|y|y]; try contradiction; destruct p2 as [z|z|z]; try contradiction;
      destruct H1 as (n1 & m1 & H1), H2 as (n2 & m2 & H2); specialize (HS n1 n2); rewrite H1, H2 in HS; exact HS.
  Qed.
  Lemma mod_expands a hd sp l out : expands E f (IMod a hd sp l) out <->
    exists s c l' n', handle_inert_attrs (ev_attr E) a (ctx_new f) = Ok (foreign a, s, c) /\ mapM (walk_item E c) l counter0 = Ok (l', n') /\ out = IMod (foreign a) hd sp l'.
  Proof.
    split.
    - intros [cnt H]. wcbn E H. winv. eauto 10.
    - intros (s & c & l' & n' & Hh & Hm & ->). exists n'. cbn [walk_item]. fold (walk_item E). unfold handle, lift, bind. rewrite Hh, Hm. reflexivity.
  Qed.
  Lemma mod_split a hd sp l : source (IMod a hd sp l) -> (forall s, In s (item_sites [] (IMod a hd sp l)) -> countless_at (ev_attr E) f s) ->
    (forall out, expands E f (IMod a hd sp l) out -> exists l', out = IMod (foreign a) hd sp l' /\
       Forall2 (fun x x' => exists y, expands E f (IMod a hd sp [x]) (IMod (foreign a) hd sp [y]) /\ itoks y = itoks x') l l') /\
    (l <> [] -> (forall x, In x l -> exists y, expands E f (IMod a hd sp [x]) y) -> exists out, expands E f (IMod a hd sp l) out).
  Proof.
    intros Hs HC.
    assert (HS : forall s c, handle_inert_attrs (ev_attr E) a (ctx_new f) = Ok (foreign a, s, c) -> Forall (fun x => sim (eqf item_forget) (walk_item E c x) (walk_item E c x)) l).
    { intros s c Hh. assert (Hc : ctx_at E (ctx_new f) [FAttrs a] c) by (eapply at_attrs; [constructor|exact Hh]).
      unfold source in Hs. cbn [item_subs] in Hs. fold item_subs in Hs. apply written_flat in Hs. rewrite Forall_forall in Hs |- *. intros x Hx.
      apply (walks_sim [FAttrs a] c (AnItem x) Hc); [apply Hs, Hx|]. intros s0 Hi. apply HC. cbn [item_sites]. apply in_flat_map. exists x. auto. }
    split.
    - intros out H. apply mod_expands in H. destruct H as (s & c & l' & n' & Hh & Hm & ->). exists l'. split; [reflexivity|].
      pose proof (mapM_split _ _ _ (HS s c Hh) _ _ _ Hm) as H2. eapply forall2_more; [|exact H2]. cbv beta. intros x x' Hx.
      destruct (Hx counter0) as (y & m' & Hy & Hg). exists y. split; [|apply (part_same (AnItem y) (AnItem x')); exact Hg]. apply mod_expands. exists s, c, [y], m'.
      split; [exact Hh|]. split; [|reflexivity]. cbn [mapM]. unfold bind. rewrite Hy. reflexivity.
    - intros Hl HX. destruct l as [|x0 l0]; [contradiction|].
      destruct (HX x0 (or_introl eq_refl)) as (y & Hy). apply mod_expands in Hy. destruct Hy as (s & c & _ & _ & Hh & _).
      destruct (mapM_join _ _ _ (HS s c Hh)) with (n := counter0) as (l' & n' & Hm).
      + apply Forall_forall. intros x Hx. destruct (HX x Hx) as (z & Hz). apply mod_expands in Hz. destruct Hz as (s2 & c2 & lz & nz & Hh2 & Hz & _).
        rewrite Hh in Hh2. inversion Hh2; subst s2 c2. cbn [mapM] in Hz. apply bind_Ok in Hz. destruct Hz as (y1 & k1 & Hy1 & _). eauto.
      + exists (IMod (foreign a) hd sp l'). apply mod_expands. eauto 10.
  Qed.
  Lemma impl_expands a hd sp l out : expands E f (IImpl a hd sp l) out <->
    exists s c l' n', handle_inert_attrs (ev_attr E) a (ctx_new f) = Ok (foreign a, s, c) /\ mapM (walk_impl_item E c) l counter0 = Ok (l', n') /\ out = IImpl (foreign a) hd sp l'.
  Proof.
    split.
    - intros [cnt H]. wcbn E H. winv. eauto 10.
    - intros (s & c & l' & n' & Hh & Hm & ->). exists n'. cbn [walk_item]. fold (walk_impl_item E). unfold handle, lift, bind. rewrite Hh, Hm. reflexivity.
  Qed.
  Lemma impl_split a hd sp l : source (IImpl a hd sp l) -> (forall s, In s (item_sites [] (IImpl a hd sp l)) -> countless_at (ev_attr E) f s) ->
    (forall out, expands E f (IImpl a hd sp l) out -> exists l', out = IImpl (foreign a) hd sp l' /\
       Forall2 (fun x x' => exists y, expands E f (IImpl a hd sp [x]) (IImpl (foreign a) hd sp [y]) /\ iitoks y = iitoks x') l l') /\
    (l <> [] -> (forall x, In x l -> exists y, expands E f (IImpl a hd sp [x]) y) -> exists out, expands E f (IImpl a hd sp l) out).
  Proof.
    intros Hs HC.
    assert (HS : forall s c, handle_inert_attrs (ev_attr E) a (ctx_new f) = Ok (foreign a, s, c) -> Forall (fun x => sim (eqf impl_forget) (walk_impl_item E c x) (walk_impl_item E c x)) l).
    { intros s c Hh. assert (Hc : ctx_at E (ctx_new f) [FAttrs a] c) by (eapply at_attrs; [constructor|exact Hh]).
      unfold source in Hs. cbn [item_subs] in Hs. fold impl_subs in Hs. apply written_flat in Hs. rewrite Forall_forall in Hs |- *. intros x Hx.
      apply (walks_sim [FAttrs a] c (AnImpl x) Hc); [apply Hs, Hx|]. intros s0 Hi. apply HC. cbn [item_sites]. apply in_flat_map. exists x. auto. }
    split.
    - intros out H. apply impl_expands in H. destruct H as (s & c & l' & n' & Hh & Hm & ->). exists l'. split; [reflexivity|].
      pose proof (mapM_split _ _ _ (HS s c Hh) _ _ _ Hm) as H2. eapply forall2_more; [|exact H2]. cbv beta. intros x x' Hx.
      destruct (Hx counter0) as (y & m' & Hy & Hg). exists y. split; [|apply (part_same (AnImpl y) (AnImpl x')); exact Hg]. apply impl_expands. exists s, c, [y], m'.
      split; [exact Hh|]. split; [|reflexivity]. cbn [mapM]. unfold bind. rewrite Hy. reflexivity.
    - intros Hl HX. destruct l as [|x0 l0]; [contradiction|].
      destruct (HX x0 (or_introl eq_refl)) as (y & Hy). apply impl_expands in Hy. destruct Hy as (s & c & _ & _ & Hh & _).
      destruct (mapM_join _ _ _ (HS s c Hh)) with (n := counter0) as (l' & n' & Hm).
      + apply Forall_forall. intros x Hx. destruct (HX x Hx) as (z & Hz). apply impl_expands in Hz. destruct Hz as (s2 & c2 & lz & nz & Hh2 & Hz & _).
        rewrite Hh in Hh2. inversion Hh2; subst s2 c2. cbn [mapM] in Hz. apply bind_Ok in Hz. destruct Hz as (y1 & k1 & Hy1 & _). eauto.
      + exists (IImpl (foreign a) hd sp l'). apply impl_expands. eauto 10.
  Qed.
  Lemma trait_expands a hd sp l out : expands E f (ITrait a hd sp l) out <->
    exists s c l' n', handle_inert_attrs (ev_attr E) a (ctx_new f) = Ok (foreign a, s, c) /\ mapM (walk_trait_item E c) l counter0 = Ok (l', n') /\ out = ITrait (foreign a) hd sp l'.
  Proof.
    split.
    - intros [cnt H]. wcbn E H. winv. eauto 10.
    - intros (s & c & l' & n' & Hh & Hm & ->). exists n'. cbn [walk_item]. fold (walk_trait_item E). unfold handle, lift, bind. rewrite Hh, Hm. reflexivity.
  Qed.
  Lemma trait_split a hd sp l : source (ITrait a hd sp l) -> (forall s, In s (item_sites [] (ITrait a hd sp l)) -> countless_at (ev_attr E) f s) ->
    (forall out, expands E f (ITrait a hd sp l) out -> exists l', out = ITrait (foreign a) hd sp l' /\
       Forall2 (fun x x' => exists y, expands E f (ITrait a hd sp [x]) (ITrait (foreign a) hd sp [y]) /\ titoks y = titoks x') l l') /\
    (l <> [] -> (forall x, In x l -> exists y, expands E f (ITrait a hd sp [x]) y) -> exists out, expands E f (ITrait a hd sp l) out).
  Proof.
    intros Hs HC.
    assert (HS : forall s c, handle_inert_attrs (ev_attr E) a (ctx_new f) = Ok (foreign a, s, c) -> Forall (fun x => sim (eqf trait_forget) (walk_trait_item E c x) (walk_trait_item E c x)) l).
    { intros s c Hh. assert (Hc : ctx_at E (ctx_new f) [FAttrs a] c) by (eapply at_attrs; [constructor|exact Hh]).
      unfold source in Hs. cbn [item_subs] in Hs. fold trait_subs in Hs. apply written_flat in Hs. rewrite Forall_forall in Hs |- *. intros x Hx.
      apply (walks_sim [FAttrs a] c (ATrait x) Hc); [apply Hs, Hx|]. intros s0 Hi. apply HC. cbn [item_sites]. apply in_flat_map. exists x. auto. }
    split.
    - intros out H. apply trait_expands in H. destruct H as (s & c & l' & n' & Hh & Hm & ->). exists l'. split; [reflexivity|].
      pose proof (mapM_split _ _ _ (HS s c Hh) _ _ _ Hm) as H2. eapply forall2_more; [|exact H2]. cbv beta. intros x x' Hx.
      destruct (Hx counter0) as (y & m' & Hy & Hg). exists y. split; [|apply (part_same (ATrait y) (ATrait x')); exact Hg]. apply trait_expands. exists s, c, [y], m'.
      split; [exact Hh|]. split; [|reflexivity]. cbn [mapM]. unfold bind. rewrite Hy. reflexivity.
    - intros Hl HX. destruct l as [|x0 l0]; [contradiction|].
      destruct (HX x0 (or_introl eq_refl)) as (y & Hy). apply trait_expands in Hy. destruct Hy as (s & c & _ & _ & Hh & _).
      destruct (mapM_join _ _ _ (HS s c Hh)) with (n := counter0) as (l' & n' & Hm).
      + apply Forall_forall. intros x Hx. destruct (HX x Hx) as (z & Hz). apply trait_expands in Hz. destruct Hz as (s2 & c2 & lz & nz & Hh2 & Hz & _).
        rewrite Hh in Hh2. inversion Hh2; subst s2 c2. cbn [mapM] in Hz. apply bind_Ok in Hz. destruct Hz as (y1 & k1 & Hy1 & _). eauto.
      + exists (ITrait (foreign a) hd sp l'). apply trait_expands. eauto 10.
  Qed.
End Siblings.
