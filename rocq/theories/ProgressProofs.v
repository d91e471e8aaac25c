(** An expansion fails only for a reason.  *)
From Coq Require Import String Ascii Bool Arith Lia List.
From Verif Require Import Base Tokens Method Paths Context Flavor Attrs Syntax SyntaxInd Render Walker RootAttr RenderSpec RenderProofs RenderVarProofs AttrSpec AttrProofs SiteSpec ProgSpec WalkFacts BareProofs SiteProofs SettingSpec SettingProofs WalkSpec WalkProofs NodeSpec NodeProofs ProgressSpec.
Import ListNotations.
Open Scope string_scope.
Open Scope list_scope.
Open Scope monad_scope.

Section Progress.
  Variable E : env.
  Variable c0 : ctx.
  Variable P : Prop.
  Variable Q : string -> Prop.
  Local Notation ctx_at := (ctx_at E c0).
  Local Notation enters := (enters E c0).

  Definition out_ok {A} (r : res A) : Prop := match r with Ok _ => True | Err _ => P | Panic m => Q m end.
  Definition safe {A} (m : M A) : Prop := forall n, out_ok (m n).
  Definition node_ok (n : node) : Prop := n_place n = PNode -> forall c, ctx_at (n_frames n) c -> out_ok (handle_inert_attrs (ev_attr E) (n_attrs n) c).
  Definition site_ok (s : site) : Prop := forall c e', ctx_at (s_frames s) c -> became E (s_target s) e' ->
    negb (is_skipped c) && eligible c (s_kind s) e' && is_hook_target c (kind_of (s_kind s)) = true ->
    forall n, out_ok (render_expr E c (kind_of (s_kind s)) n (etoks (without_own_hooq (s_whole s))) e' (hook_span s e')).

  Lemma safe_ret {A} (a : A) : safe (ret a).
  Proof. intros n. exact I. Qed.
  Lemma safe_bind {A B} (m : M A) (f : A -> M B) : safe m -> (forall a n n', m n = Ok (a, n') -> safe (f a)) -> safe (bind m f).
  Proof. intros H HF n. unfold bind. specialize (H n). destruct (m n) as [[a n']|x|x] eqn:Em; try exact H. eapply HF, Em. Qed.
  Lemma safe_mapM {A B} (f : A -> M B) l : Forall (fun x => safe (f x)) l -> safe (mapM f l).
  Proof.
    induction 1 as [|x l Hx Hl IH]; cbn [mapM]; [apply safe_ret|]. apply safe_bind; [exact Hx|]. intros. apply safe_bind; [exact IH|]. intros. apply safe_ret.
  Qed.
  Lemma safe_opt {A B} (f : A -> M B) o : optP (fun x => safe (f x)) o -> safe (optM f o).
  Proof. destruct o; cbn [optM optP]; intros H; [|apply safe_ret]. apply safe_bind; [exact H|]. intros. apply safe_ret. Qed.
  Lemma safe_handle {B} a c (f : _ -> M B) : out_ok (handle_inert_attrs (ev_attr E) a c) ->
    (forall s c', handle_inert_attrs (ev_attr E) a c = Ok (foreign a, s, c') -> safe (f (foreign a, s, c'))) -> safe (bind (handle E a c) f).
  Proof.
    intros H HF. apply safe_bind.
    - intros n. unfold handle, lift. destruct (handle_inert_attrs _ _ _) as [?|?|?]; exact H.
    - intros [[k s] c'] n n' Hh. apply handle_Ok in Hh. destruct Hh as (_ & -> & Hh). apply HF, Hh.
  Qed.
  Lemma safe_hook apply e src k q c : (apply && is_hook_target c k = true -> forall n, out_ok (render_expr E c k n src e q)) -> safe (hook_expr E apply e src k q c).
  Proof.
    intros H n. unfold hook_expr. destruct apply; cbn [negb andb] in *; [|exact I]. destruct (is_hook_target c k); cbn [negb]; [|exact I].
    specialize (H eq_refl (get_count k (count_up k n))). destruct (render_expr _ _ _ _ _ _ _); exact H.
  Qed.

  Definition G_expr (e : expr) : Prop := forall t ov c fr, enters ov c e fr -> written (subs e) -> Forall node_ok (nodes t fr e) -> Forall site_ok (sites fr e) ->
    safe (walk_expr E ov c e).
  Definition G_stmt (s : stmt) : Prop := forall t tk c fr, ctx_at fr c -> written (stmt_subs s) -> t = is_target tk -> Forall node_ok (stmt_nodes t fr s) ->
    Forall site_ok (stmt_sites (tk_opt tk) fr s) -> safe (walk_stmt E tk c s).
  Definition G_item (i : item) : Prop := forall c fr, ctx_at fr c -> written (item_subs i) -> Forall node_ok (item_nodes fr i) -> Forall site_ok (item_sites fr i) ->
    safe (walk_item E c i).
  Definition G_impl (i : impl_item) : Prop := forall c fr, ctx_at fr c -> written (impl_subs i) -> Forall node_ok (impl_nodes fr i) -> Forall site_ok (impl_sites fr i) ->
    safe (walk_impl_item E c i).
  Definition G_trait (i : trait_item) : Prop := forall c fr, ctx_at fr c -> written (trait_subs i) -> Forall node_ok (trait_nodes fr i) -> Forall site_ok (trait_sites fr i) ->
    safe (walk_trait_item E c i).
  Definition G_arm (i : arm) : Prop := forall c fr, ctx_at fr c -> written (arm_subs i) -> Forall node_ok (arm_nodes fr i) -> Forall site_ok (arm_sites fr i) ->
    safe (walk_arm E c i).
  Definition G_field (i : fieldv) : Prop := forall c fr, ctx_at fr c -> written (field_subs i) -> Forall node_ok (field_nodes fr i) -> Forall site_ok (field_sites fr i) ->
    safe (walk_field E c i).
  Definition G_mac (i : mac) : Prop := forall c fr, ctx_at fr c -> written (mac_subs i) -> Forall node_ok (mac_nodes fr i) -> Forall site_ok (mac_sites fr i) ->
    safe (walk_mac E c i).
  Definition G_ev (i : evaluable) : Prop := forall c fr, ctx_at fr c -> written (ev_subs i) -> Forall node_ok (ev_nodes fr i) -> Forall site_ok (ev_sites fr i) ->
    safe (walk_evaluable E c i).

  Lemma safe_flat {A} (f : A -> M A) (nd : A -> list node) (st : A -> list site) (sb : A -> list expr) (R : A -> Prop) l :
    Forall R l -> Forall (fun x => written (sb x)) l -> Forall node_ok (flat_map nd l) -> Forall site_ok (flat_map st l) ->
    (forall x, R x -> written (sb x) -> Forall node_ok (nd x) -> Forall site_ok (st x) -> safe (f x)) -> safe (mapM f l).
  Proof.
    intros HR HW HN HC HS. apply safe_mapM. induction HR as [|x l Hx Hl IH]; [constructor|]. cbn [flat_map] in HC, HN. apply Forall_app in HC, HN.
    inversion HW; subst. constructor; [apply HS; tauto|apply IH; tauto].
  Qed.
  Lemma last_cons {A B} (f g : A -> list B) x y l : last_map f g (x :: y :: l) = f x ++ last_map f g (y :: l).
  Proof. reflexivity. Qed.
  Lemma safe_block tk b c fr : ctx_at fr c -> is_target tk = true -> Forall G_stmt b -> Forall (fun x => written (stmt_subs x)) b ->
    Forall node_ok (last_map (stmt_nodes false fr) (stmt_nodes true fr) b) ->
    Forall site_ok (last_map (stmt_sites None fr) (stmt_sites (tk_opt tk) fr) b) -> forall n i, n = i + length b ->
    safe (mapiM (fun j s => walk_stmt E (pos_kind tk n j) c s) i b).
  Proof.
    intros Hc Htk HF. induction HF as [|s b Hs HF IH]; intros HW HN HC n i Hn; cbn [mapiM]; [apply safe_ret|].
    inversion HW; subst. apply safe_bind; [|intros; apply safe_bind; [|intros; apply safe_ret]].
    - unfold pos_kind. destruct b as [|s2 b].
      + cbn [length]. replace (i + 1 - 1) with i by lia. rewrite Nat.eqb_refl. eapply (Hs true); [eassumption|assumption|now rewrite Htk|exact HN|exact HC].
      + destruct (Nat.eqb_spec i (i + length (s :: s2 :: b) - 1)) as [He|_]; [cbn [length] in He; lia|].
        rewrite last_cons in HC. rewrite last_cons in HN. apply Forall_app in HC, HN. eapply (Hs false); [eassumption|assumption|reflexivity|apply HN|apply HC].
    - destruct b as [|s2 b]; [apply IH; [constructor|constructor|constructor|cbn [length]; lia]|].
      rewrite last_cons in HC. rewrite last_cons in HN. apply Forall_app in HC, HN. apply IH; [assumption|apply HN|apply HC|cbn [length]; lia].
  Qed.
  Lemma safe_optional c fr o t : ctx_at fr c -> optP G_expr o -> optP (fun x => written (subs x)) o -> Forall node_ok (opt_list (nodes t fr) o) ->
    Forall site_ok (opt_list (sites fr) o) -> safe (optM (walk_expr E None c) o).
  Proof.
    intros Hc HS HW HN HC. apply safe_opt. destruct o; cbn [optP opt_list] in *; [|exact I]. eapply HS; [apply enters_none, Hc|eassumption..].
  Qed.
  Lemma node_head t fr e a : get_attrs e = Some a -> Forall node_ok (nodes t fr e) -> (t = true \/ NodeProofs.is_leaf e = false) ->
    forall c, ctx_at fr c -> out_ok (handle_inert_attrs (ev_attr E) a c).
  Proof.
    intros Ha HN Ht c Hc.
    assert (H : exists m l, nodes t fr e = mk_node PNode fr a m :: l).
    { destruct e; cbn in Ha; inversion Ha; subst; cbn [nodes here]; try (eexists _, _; reflexivity).
      all: destruct Ht as [->|Ht]; [eexists _, _; reflexivity|discriminate Ht]. }
    destruct H as (m & l & H). rewrite H in HN. inversion HN as [|? ? H1 _]; subst. exact (H1 eq_refl c Hc).
  Qed.
  Lemma safe_tail tk e c fr : ctx_at fr c -> G_expr e -> written (subs e) -> Forall node_ok (nodes true fr e) -> Forall site_ok (at_tail (sites fr) (is_fn_tail tk) fr e) ->
    safe (handle_tail_with E (fun ov c' => walk_expr E ov c' e) e c tk).
  Proof.
    intros Hc HS HW HN HC. unfold handle_tail_with. destruct (get_attrs e) as [a|] eqn:Ea; [|apply safe_ret].
    unfold at_tail in HC. destruct (written_on TailExpr e HW) as (Hh & Hu & Hun). rewrite Hu, Hun, Hh in HC. apply Forall_app in HC. destruct HC as [HC1 HC2].
    apply safe_handle; [eapply node_head; [exact Ea|exact HN|auto|exact Hc]|]. intros s c' Hh'. cbv beta iota. apply safe_bind.
    - eapply (HS true (Some (foreign a)) c' fr); [right; exists a, s, c; auto|assumption..].
    - intros e' n n' He'. destruct (is_target tk) eqn:Htk; cbn [negb]; [|apply safe_ret]. destruct (target_call_check c' e') as [is_t is_nt] eqn:Ec.
      destruct (is_t || _) eqn:Eel; [|apply safe_ret]. apply safe_bind; [|intros [] ? ? _; apply safe_ret]. apply safe_hook. intros Hap n0.
      replace (verbatim e) with false in HC2 by (destruct e; try reflexivity; discriminate). inversion HC2 as [|? ? H1 _]; subst.
      specialize (H1 c' e'). cbn [s_frames s_target s_kind s_whole kind_of eligible] in H1. unfold attrs_of at 1 in H1. rewrite Ea in H1. unfold hook_span in H1. cbn [s_kind] in H1.
      unfold without_own_hooq, attrs_of in H1. rewrite Ea in H1. apply H1.
      + eapply at_attrs; eassumption.
      + exists (Some (foreign a)), c', n, n'. exact He'.
      + unfold tail_eligible. rewrite Ec, Eel. destruct (handle_again E _ _ _ _ _ Hh') as [_ <-]. rewrite andb_true_r. exact Hap.
  Qed.

  Lemma now_ok ov c e fr a m : enters ov c e fr -> get_attrs e = Some a -> node_ok (mk_node PNode fr a m) -> out_ok (handle_inert_attrs (ev_attr E) (attrs_now ov a) c).
  Proof.
    intros [[-> Hc]|(a0 & s0 & c1 & -> & Ha0 & Hc & Hh)] Ha HN; [exact (HN eq_refl c Hc)|].
    cbn [attrs_now]. destruct (handle_again E _ _ _ _ _ Hh) as [-> _]. exact I.
  Qed.

  Ltac wsplit :=
    repeat match goal with
    | H : written (_ ++ _) |- _ => apply written_app in H; destruct H
    | H : written (flat_map _ _) |- _ => apply written_flat in H
    | H : written (opt_list subs _) |- _ => apply written_opt in H
    end.
  Ltac csplit := repeat match goal with
    | H : Forall site_ok (_ ++ _) |- _ => apply Forall_app in H; destruct H
    | H : Forall node_ok (_ ++ _) |- _ => apply Forall_app in H; destruct H
    | H : Forall node_ok (_ :: _) |- _ => apply Forall_cons_iff in H; destruct H
    end.
  Ltac scbn H :=
    cbn [subs stmt_subs item_subs impl_subs trait_subs arm_subs field_subs mac_subs ev_subs] in H;
    try fold subs in H; try fold stmt_subs in H; try fold item_subs in H; try fold impl_subs in H; try fold trait_subs in H;
    try fold arm_subs in H; try fold field_subs in H; try fold mac_subs in H; try fold ev_subs in H.
  Ltac dcbn H :=
    cbn [sites stmt_sites item_sites impl_sites trait_sites arm_sites field_sites mac_sites ev_sites] in H;
    try fold sites in H; try fold stmt_sites in H; try fold item_sites in H; try fold impl_sites in H; try fold trait_sites in H; try fold arm_sites in H; try fold field_sites in H;
    try fold mac_sites in H; try fold ev_sites in H.
  Ltac ncbn H :=
    cbn [nodes stmt_nodes item_nodes impl_nodes trait_nodes arm_nodes field_nodes mac_nodes ev_nodes] in H;
    try fold nodes in H; try fold stmt_nodes in H; try fold item_nodes in H; try fold impl_nodes in H; try fold trait_nodes in H; try fold arm_nodes in H; try fold field_nodes in H;
    try fold mac_nodes in H; try fold ev_nodes in H.
  Ltac gcbn :=
    cbn [walk_expr walk_stmt walk_item walk_impl_item walk_trait_item walk_arm walk_field walk_mac walk_evaluable];
    try fold (walk_expr E); try fold (walk_stmt E); try fold (walk_item E); try fold (walk_impl_item E);
    try fold (walk_trait_item E); try fold (walk_arm E); try fold (walk_field E); try fold (walk_mac E);
    try fold (walk_evaluable E).
  Ltac actx :=
    repeat match goal with
    | |- enters None _ _ _ => apply enters_none
    | H : ctx_at ?f ?c |- ctx_at ?f ?c => exact H
    | |- ctx_at (FScope :: _) _ => apply at_scope
    | |- ctx_at (FFn _ :: _) _ => apply at_fn
    | |- ctx_at (FClosure _ _ _ :: _) _ => apply at_closure
    | H : handle_inert_attrs _ ?a ?c0 = Ok (_, _, ?c) |- ctx_at (FAttrs ?a :: _) ?c => eapply at_attrs; [|exact H]
    end.
  Ltac now_ctx :=
    match goal with
    | He : enters ?ov ?c ?e ?fr, H : handle_inert_attrs _ (attrs_now ?ov ?a) ?c = Ok _ |- _ =>
        let h1 := fresh in let h2 := fresh in let h3 := fresh "Hskip" in
        destruct (enters_now E c0 ov c e fr a _ _ _ He eq_refl H) as (h1 & h2 & h3); rewrite h2 in *
    | _ => idtac
    end.
  Ltac hd :=
    match goal with
    | He : enters ?ov ?c ?e ?fr |- out_ok (handle_inert_attrs _ (attrs_now ?ov ?a) ?c) =>
        eapply now_ok; [exact He|reflexivity|eassumption]
    | Hc : ctx_at ?fr ?c, H : node_ok (mk_node PNode ?fr ?a _) |- out_ok (handle_inert_attrs _ ?a ?c) => exact (H eq_refl c Hc)
    | Hc : ctx_at ?fr ?c, H : node_ok (here PNode ?fr ?a) |- out_ok (handle_inert_attrs _ ?a ?c) => exact (H eq_refl c Hc)
    end.
  Ltac walking :=
    first
    [ match goal with H : G_expr ?e |- safe (walk_expr _ _ _ ?e) => eapply H; [|assumption|eassumption|eassumption]; actx end
    | match goal with H : G_mac ?e |- safe (walk_mac _ _ ?e) => eapply H; [|assumption|eassumption|eassumption]; actx end
    | match goal with H : G_item ?e |- safe (walk_item _ _ ?e) => eapply H; [|assumption|eassumption|eassumption]; actx end
    | match goal with H : G_stmt ?e |- safe (walk_stmt _ NotTarget _ ?e) => eapply H; [|assumption|reflexivity|eassumption|eassumption]; actx end
    | match goal with |- safe (optM _ _) => eapply safe_optional; [|eassumption|assumption|eassumption|eassumption]; actx end
    | match goal with |- safe (mapiM _ 0 _) => eapply safe_block; [|reflexivity|eassumption|assumption|eassumption|eassumption|reflexivity]; actx end
    | match goal with HR : Forall ?R ?l, HW : Forall (fun _ => written _) ?l |- safe (mapM _ ?l) =>
        match R with (fun _ => written _) => fail 1 | _ => idtac end;
        eapply (safe_flat _ _ _ _ R); [exact HR|exact HW|eassumption|eassumption|]; cbv beta;
        let h1 := fresh in let h2 := fresh in let h3 := fresh in let h4 := fresh in intros ? h1 h2 h3 h4; eapply h1; [|exact h2|exact h3|exact h4]; actx end ].
  Ltac go :=
    repeat match goal with
    | |- safe (bind (handle _ _ _) _) => apply safe_handle; [hd|intros; cbv beta iota; now_ctx]
    | |- safe (bind _ _) => eapply safe_bind; [walking|intros; cbv beta iota]
    | |- safe (ret _) => apply safe_ret
    end.

  Lemma safe_all : (forall x, G_expr x) /\ (forall x, G_stmt x) /\ (forall x, G_item x) /\ (forall x, G_impl x) /\ (forall x, G_trait x) /\
    (forall x, G_arm x) /\ (forall x, G_field x) /\ (forall x, G_mac x) /\ (forall x, G_ev x).
  Proof.
    apply syntax_ind2; intros.
    all: match goal with
         | |- G_stmt _ => intros tl tk c1 fr Hc Hw Htl HN HC
         | |- G_expr _ => intros tl ov c1 fr Hc Hw HN HC
         | _ => intros c1 fr Hc Hw HN HC
         end; scbn Hw; dcbn HC; ncbn HN; wsplit; csplit; gcbn.
    all: try solve [go].
    - (* closure *)
      go. eapply safe_bind; [|intros; apply safe_ret].
      set (c2 := update_fn_info _ _).
      assert (Hc2 : ctx_at (FClosure a hd out :: FAttrs a :: fr) c2) by (apply at_closure; assumption). clearbody c2.
      destruct body; try (eapply safe_tail; [exact Hc2|eassumption..]).
      cbn [stmts_of] in *. match goal with H : written (subs _) |- _ => scbn H end. match goal with H : Forall node_ok (nodes _ _ _) |- _ => ncbn H end. wsplit. csplit. go.
    - (* return *)
      apply safe_handle; [hd|]. intros s c' Hh. cbv beta iota. now_ctx. destruct e as [e0|]; [|apply safe_ret].
      cbn [optP opt_list] in *. destruct (written_on Return e0 ltac:(assumption)) as (Hon & Hu & Hun). rewrite Hon, Hu, Hun in HC. csplit.
      eapply safe_bind; [walking|]. intros x n1 n2 Hx. destruct (target_call_check c' x) as [it int] eqn:Ec.
      destruct (it || _) eqn:Eel; [|apply safe_ret]. eapply safe_bind; [|intros [] ? ? _; apply safe_ret].
      apply safe_hook. intros Hap n0.
      match goal with H : Forall site_ok [_] |- _ => inversion H as [|? ? Hs _]; subst end.
      specialize (Hs c' x ltac:(assumption) (ex_intro _ None (ex_intro _ c' (ex_intro _ n1 (ex_intro _ n2 Hx))))).
      cbn [s_kind kind_of eligible] in Hs. apply Hs. unfold ret_eligible. rewrite Ec, Eel, andb_true_r. exact Hap.
    - (* try *)
      apply safe_handle; [hd|]. intros s c' Hh. cbv beta iota. now_ctx.
      destruct (written_on Question e ltac:(assumption)) as (Hon & Hu & Hun). rewrite Hon, Hu, Hun in *. csplit.
      eapply safe_bind; [walking|]. intros x n1 n2 Hx. eapply safe_bind; [|intros [] ? ? _; apply safe_ret].
      apply safe_hook. intros Hap n0.
      match goal with H : Forall site_ok [_] |- _ => inversion H as [|? ? Hs _]; subst end.
      specialize (Hs c' x ltac:(assumption) (ex_intro _ None (ex_intro _ c' (ex_intro _ n1 (ex_intro _ n2 Hx))))).
      cbn [s_kind kind_of eligible] in Hs. apply Hs. rewrite andb_true_r. exact Hap.
    - (* expression statement *)
      destruct semi; [|destruct tk; cbn [is_target tk_opt] in *]; subst tl; rewrite ?andb_true_r, ?andb_false_r in HN; cbn [andb] in HN.
      + go.
      + eapply safe_bind; [eapply safe_tail; eassumption|]. intros; go.
      + eapply safe_bind; [eapply safe_tail; eassumption|]. intros; go.
      + go.
    - (* macro item *)
      destruct name; csplit; go.
    - (* arm *)
      go. eapply safe_bind; [|intros; go].
      destruct body; first [walking | eapply safe_tail; eassumption].
    - (* macro call *)
      destruct (hook_in_macros c1) eqn:Em; cbn [negb]; [|apply safe_ret].
      destruct view as [l|]; [|apply safe_ret]. cbn [optP] in *. wsplit.
      assert (Hm : ctx_at (FMacro :: fr) c1) by (apply at_macro; assumption). go.
  Qed.
End Progress.

(** * Every enclosing attribute list is one of the nodes *)
Section Frames.
  Variable K : list attr -> Prop.
  Definition fr_ok (x : frame) : Prop := match x with FAttrs a => K a | _ => True end.
  Definition st_ok (s : site) : Prop := Forall fr_ok (s_frames s).
  Definition nd_ok (n : node) : Prop := K (n_attrs n).
  Definition F_expr (e : expr) : Prop := forall t fr, written (subs e) -> Forall fr_ok fr -> Forall nd_ok (nodes t fr e) -> Forall st_ok (sites fr e).
  Definition F_stmt (s : stmt) : Prop := forall t t2 fr, written (stmt_subs s) -> Forall fr_ok fr -> Forall nd_ok (stmt_nodes t fr s) -> Forall st_ok (stmt_sites t2 fr s).
  Definition F_item (i : item) : Prop := forall fr, written (item_subs i) -> Forall fr_ok fr -> Forall nd_ok (item_nodes fr i) -> Forall st_ok (item_sites fr i).
  Definition F_impl (i : impl_item) : Prop := forall fr, written (impl_subs i) -> Forall fr_ok fr -> Forall nd_ok (impl_nodes fr i) -> Forall st_ok (impl_sites fr i).
  Definition F_trait (i : trait_item) : Prop := forall fr, written (trait_subs i) -> Forall fr_ok fr -> Forall nd_ok (trait_nodes fr i) -> Forall st_ok (trait_sites fr i).
  Definition F_arm (i : arm) : Prop := forall fr, written (arm_subs i) -> Forall fr_ok fr -> Forall nd_ok (arm_nodes fr i) -> Forall st_ok (arm_sites fr i).
  Definition F_field (i : fieldv) : Prop := forall fr, written (field_subs i) -> Forall fr_ok fr -> Forall nd_ok (field_nodes fr i) -> Forall st_ok (field_sites fr i).
  Definition F_mac (i : mac) : Prop := forall fr, written (mac_subs i) -> Forall fr_ok fr -> Forall nd_ok (mac_nodes fr i) -> Forall st_ok (mac_sites fr i).
  Definition F_ev (i : evaluable) : Prop := forall fr, written (ev_subs i) -> Forall fr_ok fr -> Forall nd_ok (ev_nodes fr i) -> Forall st_ok (ev_sites fr i).

  Lemma fr_flat {A} (R : A -> Prop) (sb : A -> list expr) (nd : A -> list node) (st : A -> list site) l : Forall R l -> Forall (fun x => written (sb x)) l ->
    Forall nd_ok (flat_map nd l) -> (forall x, R x -> written (sb x) -> Forall nd_ok (nd x) -> Forall st_ok (st x)) -> Forall st_ok (flat_map st l).
  Proof.
    intros HR HW HN HS. induction HR as [|x l Hx Hl IH]; [constructor|]. cbn [flat_map] in *. apply Forall_app in HN. inversion HW; subst.
    apply Forall_app. split; [apply HS; tauto|apply IH; tauto].
  Qed.
  Lemma fr_block fr t b : Forall fr_ok fr -> Forall F_stmt b -> Forall (fun x => written (stmt_subs x)) b ->
    Forall nd_ok (last_map (stmt_nodes false fr) (stmt_nodes true fr) b) -> Forall st_ok (last_map (stmt_sites None fr) (stmt_sites t fr) b).
  Proof.
    intros Hf HF. induction HF as [|s b Hs HF IH]; intros HW HN; [constructor|]. inversion HW; subst. destruct b as [|s2 b].
    - cbn [last_map] in *. eapply Hs; eassumption.
    - rewrite last_cons in HN. rewrite last_cons. apply Forall_app in HN. apply Forall_app. split; [eapply Hs; [assumption..|apply HN]|apply IH; tauto].
  Qed.
  Lemma fr_opt o t fr : Forall fr_ok fr -> optP F_expr o -> optP (fun x => written (subs x)) o -> Forall nd_ok (opt_list (nodes t fr) o) -> Forall st_ok (opt_list (sites fr) o).
  Proof. intros Hf HS HW HN. destruct o; cbn [opt_list optP] in *; [|constructor]. eapply HS; eassumption. Qed.
  Lemma nodes_head t fr e : verbatim e = false -> written (subs e) -> Forall nd_ok (nodes t fr e) -> K (attrs_of e).
  Proof. intros Hv Hw HN. pose proof (written_self _ Hw) as Hh. destruct e; try discriminate Hv; try (exfalso; eapply Hh; reflexivity); cbn [nodes] in HN; inversion HN; subst; assumption. Qed.
  Lemma fr_tail fn t fr e : Forall fr_ok fr -> F_expr e -> written (subs e) -> Forall nd_ok (nodes t fr e) -> Forall st_ok (at_tail (sites fr) fn fr e).
  Proof.
    intros Hf HS HW HN. unfold at_tail. destruct (written_on TailExpr e HW) as (Hh & Hu & Hun). rewrite Hu, Hun, Hh. apply Forall_app. split; [eapply HS; eassumption|].
    destruct (verbatim e) eqn:Ev; constructor; [|constructor]. constructor; [|exact Hf]. eapply nodes_head; eassumption.
  Qed.

  Ltac wsplit :=
    repeat match goal with
    | H : written (_ ++ _) |- _ => apply written_app in H; destruct H
    | H : written (flat_map _ _) |- _ => apply written_flat in H
    | H : written (opt_list subs _) |- _ => apply written_opt in H
    | H : Forall nd_ok (_ ++ _) |- _ => apply Forall_app in H; destruct H
    | H : Forall nd_ok (_ :: _) |- _ => apply Forall_cons_iff in H; destruct H
    end.
  Ltac scbn H :=
    cbn [subs stmt_subs item_subs impl_subs trait_subs arm_subs field_subs mac_subs ev_subs] in H;
    try fold subs in H; try fold stmt_subs in H; try fold item_subs in H; try fold impl_subs in H; try fold trait_subs in H;
    try fold arm_subs in H; try fold field_subs in H; try fold mac_subs in H; try fold ev_subs in H.
  Ltac dcbn :=
    cbn [sites stmt_sites item_sites impl_sites trait_sites arm_sites field_sites mac_sites ev_sites];
    try fold sites; try fold stmt_sites; try fold item_sites; try fold impl_sites; try fold trait_sites; try fold arm_sites; try fold field_sites;
    try fold mac_sites; try fold ev_sites.
  Ltac ncbn H :=
    cbn [nodes stmt_nodes item_nodes impl_nodes trait_nodes arm_nodes field_nodes mac_nodes ev_nodes] in H;
    try fold nodes in H; try fold stmt_nodes in H; try fold item_nodes in H; try fold impl_nodes in H; try fold trait_nodes in H; try fold arm_nodes in H; try fold field_nodes in H;
    try fold mac_nodes in H; try fold ev_nodes in H.
  Ltac frs := repeat first [assumption | exact I | match goal with |- Forall fr_ok (_ :: _) => apply Forall_cons end].
  Ltac one :=
    first
    [ apply Forall_nil
    | match goal with |- Forall st_ok (_ ++ _) => apply Forall_app; split end
    | match goal with H : F_expr ?e |- Forall st_ok (sites _ ?e) => eapply H; [assumption| |eassumption]; frs end
    | match goal with H : F_mac ?e |- Forall st_ok (mac_sites _ ?e) => eapply H; [assumption| |eassumption]; frs end
    | match goal with H : F_item ?e |- Forall st_ok (item_sites _ ?e) => eapply H; [assumption| |eassumption]; frs end
    | match goal with H : F_stmt ?e |- Forall st_ok (stmt_sites _ _ ?e) => eapply H; [assumption| |eassumption]; frs end
    | match goal with |- Forall st_ok (opt_list _ _) => eapply fr_opt; [|eassumption|assumption|eassumption]; frs end
    | match goal with |- Forall st_ok (last_map _ _ _) => eapply fr_block; [|eassumption|assumption|eassumption]; frs end
    | match goal with HR : Forall ?R ?l, HW : Forall (fun _ => written _) ?l |- Forall st_ok (flat_map _ ?l) =>
        match R with (fun _ => written _) => fail 1 | _ => idtac end;
        eapply (fr_flat R); [exact HR|exact HW|eassumption|]; cbv beta;
        let h1 := fresh in let h2 := fresh in let h3 := fresh in intros ? h1 h2 h3; eapply h1; [exact h2| |exact h3]; frs end ].

  Lemma fr_all : (forall x, F_expr x) /\ (forall x, F_stmt x) /\ (forall x, F_item x) /\ (forall x, F_impl x) /\ (forall x, F_trait x) /\
    (forall x, F_arm x) /\ (forall x, F_field x) /\ (forall x, F_mac x) /\ (forall x, F_ev x).
  Proof.
    apply syntax_ind2; intros.
    all: match goal with
         | |- F_stmt _ => intros tl t2 fr Hw Hfr HN
         | |- F_expr _ => intros tl fr Hw Hfr HN
         | _ => intros fr Hw Hfr HN
         end; scbn Hw; ncbn HN; wsplit; dcbn.
    all: try solve [repeat one].
    - (* closure *)
      destruct body; try (eapply fr_tail; [|eassumption..]; frs).
      cbn [stmts_of] in *. match goal with H : written (subs _) |- _ => scbn H end. match goal with H : Forall nd_ok (nodes _ _ _) |- _ => ncbn H end. wsplit. repeat one.
    - (* return *)
      destruct e as [e0|]; [|constructor]. cbn [optP opt_list] in *. destruct (written_on Return e0 ltac:(assumption)) as (Hon & Hu & Hun). rewrite Hon, Hu, Hun.
      one; [one|]. repeat constructor; frs.
    - (* try *)
      destruct (written_on Question e ltac:(assumption)) as (Hon & Hu & Hun). rewrite Hon, Hu, Hun. one; [one|]. repeat constructor; frs.
    - (* hook *)
      match goal with H : written [_] |- _ => discriminate H end.
    - (* expression statement *)
      destruct semi; [one|]. destruct t2; [eapply fr_tail; eassumption|one].
    - (* macro item *)
      destruct name; wsplit; one.
    - (* arm *)
      one; [one|]. destruct body; first [one | eapply fr_tail; eassumption].
    - (* macro call *)
      destruct view as [l|]; [|constructor]. cbn [optP] in *. wsplit. one.
  Qed.
End Frames.

(** * The whole item *)
Lemma no_events env l es : node_events env l [] -> node_events env l es -> es = [].
Proof.
  intros H. remember [] as es0 eqn:He. revert es. induction H as [|a l e es1 Hp Hr Hn IH|a l es1 Hp Hk Hn IH]; intros es H2; [inversion H2; reflexivity|discriminate|].
  inversion H2 as [|? ? ? ? Hp2 ? ?|? ? ? ? ? Hn2]; subst; [congruence|]. apply IH; [reflexivity|assumption].
Qed.

Section Whole.
  Variable E : env.
  Variable f : fcore.
  Hypothesis loads : forall l q, ae_flavor (ev_attr E) l <> Panic q.

  Lemma handle_out (P : Prop) (Q : string -> Prop) a c : ((forall es, ~ node_events (ev_attr E) a es) -> P) -> out_ok P Q (handle_inert_attrs (ev_attr E) a c).
  Proof.
    intros HP. unfold handle_inert_attrs. destruct (extract (ev_attr E) a) as [[i k]|x|x] eqn:Ex; cbn [bindR out_ok]; [exact I| |].
    - apply HP. intros es Hes. apply extract_total in Hes. destruct Hes as (i & Hi & _). congruence.
    - exfalso. eapply extract_no_panic; [|exact Ex]. exact loads.
  Qed.

  Lemma render_out (P : Prop) (Q : string -> Prop) tr c k n src e q : in_effect f tr c -> (~ templates_ok f tr -> P) ->
    (forall ts, render_toks (ev_str E) c k n src (etoks e) q = Ok ts -> ev_parse E ts = None -> Q "parse_quote!") ->
    out_ok P Q (render_expr E c k n src e q).
  Proof.
    intros He HP HQ. unfold render_expr. destruct (render_toks _ _ _ _ _ _ _) as [ts|x|x] eqn:Er; cbn [bindR out_ok].
    - specialize (HQ ts eq_refl). destruct (ev_parse E ts); [exact I|]. apply HQ. reflexivity.
    - apply HP. intros (H1 & H2 & H3). unfold render_toks in Er.
      destruct (em_success (ev_str E) c k n src (etoks e) q (cx_method c)) as (out & Ho).
      + rewrite (ie_methods _ _ _ He). apply Forall_forall. exact H1.
      + intros m x0. rewrite (ie_methods _ _ _ He), (ie_bindings _ _ _ He). apply H2.
      + intros pre m x0. rewrite (ie_methods _ _ _ He). apply H3.
      + rewrite Ho in Er. cbn [bindR] in Er. destruct (fval (cx_method c)); discriminate.
    - exfalso. unfold render_toks in Er. destruct (expand_method _ _ _ _ _ _ _ _) as [o|o|o] eqn:Eo; cbn [bindR] in Er.
      + destruct (fval (cx_method c)); discriminate.
      + discriminate.
      + eapply em_no_panic, Eo.
  Qed.

  Theorem failure it : source it ->
    match walk_item E (ctx_new f) it counter0 with
    | Ok _ => True
    | Err _ => (exists n, In n (item_nodes [] it) /\ unreadable (ev_attr E) f n) \/ (exists s, In s (item_sites [] it) /\ unfillable E f s)
    | Panic m => m = "parse_quote!" /\ exists s, In s (item_sites [] it) /\ unparsable E f s
    end.
  Proof.
    intros Hs.
    set (P := (exists n, In n (item_nodes [] it) /\ unreadable (ev_attr E) f n) \/ (exists s, In s (item_sites [] it) /\ unfillable E f s)).
    set (Q := fun m : string => m = "parse_quote!" /\ exists s, In s (item_sites [] it) /\ unparsable E f s).
    change (out_ok P Q (walk_item E (ctx_new f) it counter0)).
    destruct (safe_all E (ctx_new f) P Q) as (_ & _ & HI & _).
    eapply (HI it (ctx_new f) []); [constructor|exact Hs| |]; rewrite Forall_forall.
    - intros n Hn Hp c Hc. apply handle_out. intros Hes. left. exists n. split; [exact Hn|]. split; [exact Hp|].
      apply at_trail in Hc. destruct Hc as (tr & Ht & Hr & _). exists tr. auto.
    - intros s Hsi c e' Hc Hb Hr n. destruct (at_trail _ _ _ _ Hc) as (tr & Ht & Hre & He).
      apply (rule_iff f tr c He (s_kind s) e') in Hr.
      apply (render_out P Q tr); [exact He| |].
      + intros Hno. right. exists s. split; [exact Hsi|]. exists tr, e'. repeat split; assumption.
      + intros ts Hts Hp. split; [reflexivity|]. exists s. split; [exact Hsi|]. exists tr, e', ts. repeat split; try assumption. exists c, n. auto.
  Qed.
End Whole.
