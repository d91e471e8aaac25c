(** What becomes of the attribute lists and macro calls of a program.  *)
From Coq Require Import String Ascii Bool Arith Lia List.
From Verif Require Import Base Tokens Method Paths Context Flavor Attrs Syntax SyntaxInd Render RenderProofs Walker AttrSpec AttrProofs SiteSpec ProgSpec WalkFacts BareProofs SiteProofs SettingSpec SettingProofs RootAttr WalkSpec NodeSpec.
Import ListNotations.
Open Scope string_scope.
Open Scope list_scope.
Open Scope monad_scope.

Section Nodes.
  Variable E : env.
  Variable c0 : ctx.
  Local Notation ctx_at := (ctx_at E c0).
  Local Notation blocked := (blocked E c0).
  Local Notation enters := (enters E c0).

  Definition mac_left (c : ctx) (m : mac) : Prop := hook_in_macros c = false \/ match m with Mac _ _ _ _ v => v = None end.
  Definition mac_entered (c : ctx) (m m' : mac) : Prop :=
    hook_in_macros c = true /\ mac_bare m' = mac_bare m /\
    match m with Mac p d sp _ v => v <> None /\ exists l', m' = Mac p d sp (flat_map vtoks l') (Some l') end.
  Inductive noted : node -> node -> Prop :=
  | nt_live : forall fr fr' a c s c1, ctx_at fr c -> handle_inert_attrs (ev_attr E) a c = Ok (foreign a, s, c1) -> noted (here PNode fr a) (here PNode fr' (foreign a))
  | nt_mac : forall fr fr' a c s c1 m m', ctx_at fr c -> handle_inert_attrs (ev_attr E) a c = Ok (foreign a, s, c1) ->
      (mac_left c1 m /\ m' = m \/ mac_entered c1 m m') -> noted (mk_node PNode fr a (Some m)) (mk_node PNode fr' (foreign a) (Some m'))
  | nt_not : forall p fr fr' a m, p <> PNode -> noted (mk_node p fr a m) (mk_node p fr' a m)
  | nt_dead : forall p fr fr' a m, blocked fr -> noted (mk_node p fr a m) (mk_node p fr' a m).
  Local Notation notes := (Forall2 noted).

  Lemma notes_app a a' b b' : notes a a' -> notes b b' -> notes (a ++ b) (a' ++ b').
  Proof. apply Forall2_app. Qed.
  Lemma flat_notes {A} (f : A -> M A) (g g' : A -> list node) l c l' c' :
    Forall (fun x => forall c y c', f x c = Ok (y, c') -> notes (g x) (g' y)) l -> chain f c l l' c' -> notes (flat_map g l) (flat_map g' l').
  Proof. intros HF H. induction H; [constructor|]. inversion HF as [|? ? Hx Hl]; subst. cbn [flat_map]. apply notes_app; [eapply Hx, H|]. auto. Qed.
  Lemma last_notes {A} (f1 f2 : A -> M A) (g1 g2 g1' g2' : A -> list node) l c l' c' :
    Forall (fun x => (forall c y c', f1 x c = Ok (y, c') -> notes (g1 x) (g1' y)) /\ (forall c y c', f2 x c = Ok (y, c') -> notes (g2 x) (g2' y))) l ->
    last_chain f1 f2 c l l' c' -> notes (last_map g1 g2 l) (last_map g1' g2' l').
  Proof.
    intros HF H. induction H as [|c x y c1 H|c x y c1 x2 l y2 l' c2 H HC IH]; [constructor| |]; inversion HF as [|? ? [Hx Hx'] Hl]; subst.
    - cbn [last_map]. eapply Hx', H.
    - change (last_map g1 g2 (x :: x2 :: l)) with (g1 x ++ last_map g1 g2 (x2 :: l)).
      change (last_map g1' g2' (y :: y2 :: l')) with (g1' y ++ last_map g1' g2' (y2 :: l')). apply notes_app; [eapply Hx, H|]. apply IH, Hl.
  Qed.

  (** * Unreached parts *)
  Definition DN_expr (e : expr) : Prop := forall t fr fr2, blocked fr -> notes (nodes t fr e) (nodes t fr2 e).
  Definition DN_stmt (e : stmt) : Prop := forall t fr fr2, blocked fr -> notes (stmt_nodes t fr e) (stmt_nodes t fr2 e).
  Definition DN_item (e : item) : Prop := forall fr fr2, blocked fr -> notes (item_nodes fr e) (item_nodes fr2 e).
  Definition DN_impl (e : impl_item) : Prop := forall fr fr2, blocked fr -> notes (impl_nodes fr e) (impl_nodes fr2 e).
  Definition DN_trait (e : trait_item) : Prop := forall fr fr2, blocked fr -> notes (trait_nodes fr e) (trait_nodes fr2 e).
  Definition DN_arm (e : arm) : Prop := forall fr fr2, blocked fr -> notes (arm_nodes fr e) (arm_nodes fr2 e).
  Definition DN_field (e : fieldv) : Prop := forall fr fr2, blocked fr -> notes (field_nodes fr e) (field_nodes fr2 e).
  Definition DN_mac (e : mac) : Prop := forall fr fr2, blocked fr -> notes (mac_nodes fr e) (mac_nodes fr2 e).
  Definition DN_ev (e : evaluable) : Prop := forall fr fr2, blocked fr -> notes (ev_nodes fr e) (ev_nodes fr2 e).

  Lemma dead_flat {A} (g g' : A -> list node) l : Forall (fun x => notes (g x) (g' x)) l -> notes (flat_map g l) (flat_map g' l).
  Proof. induction 1; cbn [flat_map]; [constructor|apply notes_app; assumption]. Qed.
  Lemma dead_last {A} (g1 g2 g1' g2' : A -> list node) l : Forall (fun x => notes (g1 x) (g1' x) /\ notes (g2 x) (g2' x)) l ->
    notes (last_map g1 g2 l) (last_map g1' g2' l).
  Proof.
    induction 1 as [|x l [H1 H2] HF IH]; [constructor|]. destruct l as [|x2 l]; [exact H2|].
    change (last_map g1 g2 (x :: x2 :: l)) with (g1 x ++ last_map g1 g2 (x2 :: l)).
    change (last_map g1' g2' (x :: x2 :: l)) with (g1' x ++ last_map g1' g2' (x2 :: l)). apply notes_app; assumption.
  Qed.
  Lemma dead_here p fr fr2 a m l l' : blocked fr -> notes l l' -> notes (mk_node p fr a m :: l) (mk_node p fr2 a m :: l').
  Proof. intros H Hl. constructor; [apply nt_dead, H|exact Hl]. Qed.
  Ltac blk := repeat first [assumption | apply bl_dead | apply bl_more].
  Ltac ncbn :=
    cbn [nodes stmt_nodes item_nodes impl_nodes trait_nodes arm_nodes field_nodes mac_nodes ev_nodes];
    try fold nodes; try fold stmt_nodes; try fold item_nodes; try fold impl_nodes; try fold trait_nodes; try fold arm_nodes; try fold field_nodes;
    try fold mac_nodes; try fold ev_nodes.
  Ltac dead :=
    repeat match goal with
    | |- notes [] [] => constructor
    | |- notes (here _ _ _ :: _) _ => apply dead_here; [blk|]
    | |- notes (mk_node _ _ _ _ :: _) _ => apply dead_here; [blk|]
    | |- notes (_ ++ _) (_ ++ _) => apply notes_app
    | H : _ |- _ => solve [apply H; blk]
    | |- notes (opt_list _ ?o) _ => destruct o; cbn [opt_list optP] in *
    | |- notes (last_map _ _ ?b) _ => apply dead_last; eapply Forall_impl; [|eassumption]; cbv beta; let H1 := fresh in intros ? H1; split; solve [apply H1; blk]
    | |- notes (flat_map _ ?b) _ => apply dead_flat; eapply Forall_impl; [|eassumption]; cbv beta; let H1 := fresh in intros ? H1; solve [apply H1; blk]
    end.
  Lemma dead_nodes : (forall x, DN_expr x) /\ (forall x, DN_stmt x) /\ (forall x, DN_item x) /\ (forall x, DN_impl x) /\ (forall x, DN_trait x) /\
    (forall x, DN_arm x) /\ (forall x, DN_field x) /\ (forall x, DN_mac x) /\ (forall x, DN_ev x).
  Proof.
    apply syntax_ind2; intros.
    all: match goal with
         | |- DN_stmt _ => intros tl fr fr2 Hb
         | |- DN_expr _ => intros tl fr fr2 Hb
         | _ => intros fr fr2 Hb
         end; ncbn.
    all: try solve [dead].
    - destruct (h_consumed h) as [[a sp]|]; dead.
    - destruct name; dead.
    - destruct view; [|constructor]. cbn [optP] in *. dead.
  Qed.

  (** * The walk *)
  Definition is_leaf (e : expr) : bool := match e with EContinue _ _ | EInfer _ _ | ELit _ _ _ | EPath _ _ => true | _ => false end.
  Definition tail_ok (t : bool) (ov : option (list attr)) (e : expr) : Prop :=
    match ov with Some _ => t = true | None => is_leaf e = true -> t = false end.
  Definition N_expr (e : expr) : Prop := forall t ov c cnt e' cnt' fr fr2, walk_expr E ov c e cnt = Ok (e', cnt') -> written (subs e) -> enters ov c e fr ->
    tail_ok t ov e -> notes (nodes t fr e) (nodes t fr2 e').
  Definition N_stmt (e : stmt) : Prop := forall tk c cnt e' cnt' fr fr2, walk_stmt E tk c e cnt = Ok (e', cnt') -> written (stmt_subs e) -> ctx_at fr c ->
    notes (stmt_nodes (is_target tk) fr e) (stmt_nodes (is_target tk) fr2 e').
  Definition N_item (e : item) : Prop := forall c cnt e' cnt' fr fr2, walk_item E c e cnt = Ok (e', cnt') -> written (item_subs e) -> ctx_at fr c ->
    notes (item_nodes fr e) (item_nodes fr2 e').
  Definition N_impl (e : impl_item) : Prop := forall c cnt e' cnt' fr fr2, walk_impl_item E c e cnt = Ok (e', cnt') -> written (impl_subs e) -> ctx_at fr c ->
    notes (impl_nodes fr e) (impl_nodes fr2 e').
  Definition N_trait (e : trait_item) : Prop := forall c cnt e' cnt' fr fr2, walk_trait_item E c e cnt = Ok (e', cnt') -> written (trait_subs e) -> ctx_at fr c ->
    notes (trait_nodes fr e) (trait_nodes fr2 e').
  Definition N_arm (e : arm) : Prop := forall c cnt e' cnt' fr fr2, walk_arm E c e cnt = Ok (e', cnt') -> written (arm_subs e) -> ctx_at fr c ->
    notes (arm_nodes fr e) (arm_nodes fr2 e').
  Definition N_field (e : fieldv) : Prop := forall c cnt e' cnt' fr fr2, walk_field E c e cnt = Ok (e', cnt') -> written (field_subs e) -> ctx_at fr c ->
    notes (field_nodes fr e) (field_nodes fr2 e').
  Definition N_mac (e : mac) : Prop := forall c cnt e' cnt' fr fr2, walk_mac E c e cnt = Ok (e', cnt') -> written (mac_subs e) -> ctx_at fr c ->
    notes (mac_nodes fr e) (mac_nodes fr2 e').
  Definition N_ev (e : evaluable) : Prop := forall c cnt e' cnt' fr fr2, walk_evaluable E c e cnt = Ok (e', cnt') -> written (ev_subs e) -> ctx_at fr c ->
    notes (ev_nodes fr e) (ev_nodes fr2 e').

  Lemma hook_nodes h o r t fr : h_consumed h = None -> nodes t fr (EHook h o r) = nodes t fr o.
  Proof. intros H. cbn [nodes]. rewrite H. reflexivity. Qed.
  Lemma tail_notes e tk c cnt e' cnt' fr fr2 : N_expr e ->
    handle_tail_with E (fun ov c' => walk_expr E ov c' e) e c tk cnt = Ok (e', cnt') -> written (subs e) -> ctx_at fr c ->
    notes (nodes true fr e) (nodes true fr2 e').
  Proof.
    intros He H Hw Hc. apply tail_Ok in H. destruct (get_attrs e) as [a|] eqn:Ea.
    2: { destruct H as [-> ->]. destruct e; try discriminate; [constructor|]. exfalso. eapply written_self; [exact Hw|reflexivity]. }
    destruct H as (s & c1 & e1 & cnt1 & Hh & Hwalk & _ & H). cbv zeta in H.
    assert (Hr : notes (nodes true fr e) (nodes true fr2 e1)).
    { eapply He; [exact Hwalk|exact Hw| |reflexivity]. right. exists a, s, c. auto. }
    destruct (_ && is_hook_target c1 TailExpr); [destruct H as (r & -> & _)|subst e']; exact Hr.
  Qed.
  Lemma entered c m cnt m' cnt' : walk_mac E c m cnt = Ok (m', cnt') -> mac_left c m /\ m' = m \/ mac_entered c m m'.
  Proof.
    intros H. pose proof (proj1 (proj2 (proj2 (proj2 (proj2 (proj2 (proj2 (proj2 (bare_all E)))))))) _ _ _ _ _ H) as Hb.
    destruct m as [p d sp ts v]. apply mac_Ok in H. destruct H as [(-> & _ & H)|(Hm & l & l' & -> & _ & ->)]; [left; split; [exact H|reflexivity]|right].
    split; [exact Hm|]. split; [exact Hb|]. split; [discriminate|eauto].
  Qed.

  Ltac wsplit :=
    repeat match goal with
    | H : written (_ ++ _) |- _ => apply written_app in H; destruct H
    | H : written (flat_map _ _) |- _ => apply written_flat in H
    | H : written (opt_list subs _) |- _ => apply written_opt in H
    end.
  Ltac scbn H :=
    cbn [subs stmt_subs item_subs impl_subs trait_subs arm_subs field_subs mac_subs ev_subs] in H;
    try fold subs in H; try fold stmt_subs in H; try fold item_subs in H; try fold impl_subs in H; try fold trait_subs in H;
    try fold arm_subs in H; try fold field_subs in H; try fold mac_subs in H; try fold ev_subs in H.
  Ltac actx :=
    repeat match goal with
    | |- enters None _ _ _ => apply enters_none
    | H : ctx_at ?f ?c |- ctx_at ?f ?c => exact H
    | |- ctx_at (FScope :: _) _ => apply at_scope
    | |- ctx_at (FFn _ :: _) _ => apply at_fn
    | |- ctx_at (FClosure _ _ _ :: _) _ => apply at_closure
    | H : handle_inert_attrs _ ?a ?c0 = Ok (_, _, ?c) |- ctx_at (FAttrs ?a :: _) ?c => eapply at_attrs; [|exact H]
    end.
  Lemma es_notes c es cnt es' cnt' fr fr2 : Forall N_expr es -> mapM (walk_expr E None c) es cnt = Ok (es', cnt') ->
    Forall (fun x => written (subs x)) es -> ctx_at fr c -> notes (flat_map (nodes false fr) es) (flat_map (nodes false fr2) es').
  Proof.
    intros HF H HW Hc. apply mapM_chain in H. eapply flat_notes; [|exact H]. eapply Forall_mp; [|exact HF|exact HW].
    cbv beta. intros x Hx Hx2 c1 y c2 Hy. eapply Hx; [exact Hy|exact Hx2|apply enters_none, Hc|intros _; reflexivity].
  Qed.
  Lemma list_notes {A} (f : A -> M A) (sb : A -> list expr) (g g' : A -> list node) (R : A -> Prop) es cnt es' cnt' : Forall R es -> mapM f es cnt = Ok (es', cnt') ->
    Forall (fun x => written (sb x)) es ->
    (forall x, R x -> written (sb x) -> forall c y c', f x c = Ok (y, c') -> notes (g x) (g' y)) -> notes (flat_map g es) (flat_map g' es').
  Proof.
    intros HF H HW Hc. apply mapM_chain in H. eapply flat_notes; [|exact H]. eapply Forall_mp; [|exact HF|exact HW].
    cbv beta. intros x Hx Hx2 c1 y c2 Hy. eapply Hc; eassumption.
  Qed.
  Lemma block_notes tk c b n cnt b' cnt' fr fr2 : is_target tk = true -> Forall N_stmt b -> n = length b ->
    mapiM (fun j s => walk_stmt E (pos_kind tk n j) c s) 0 b cnt = Ok (b', cnt') ->
    Forall (fun x => written (stmt_subs x)) b -> ctx_at fr c ->
    notes (last_map (stmt_nodes false fr) (stmt_nodes true fr) b) (last_map (stmt_nodes false fr2) (stmt_nodes true fr2) b').
  Proof.
    intros Ht HF -> H HW Hc. apply (block_chain0 (fun tk s => walk_stmt E tk c s)) in H. eapply last_notes; [|exact H].
    eapply Forall_mp; [|exact HF|exact HW]. cbv beta. intros x Hx Hx2. split; intros c1 y c2 Hy.
    - exact (Hx NotTarget _ _ _ _ _ _ Hy Hx2 Hc).
    - rewrite <- Ht. eapply Hx; eassumption.
  Qed.
  Lemma opt_notes c o cnt o' cnt' fr fr2 : optP N_expr o -> optM (walk_expr E None c) o cnt = Ok (o', cnt') ->
    optP (fun x => written (subs x)) o -> ctx_at fr c -> notes (opt_list (nodes false fr) o) (opt_list (nodes false fr2) o').
  Proof.
    intros HF H HW Hc. apply opt_Ok in H. destruct o as [x|], o' as [y|]; try contradiction; cbn [opt_list optP] in *.
    - eapply HF; [exact H|exact HW|apply enters_none, Hc|intros _; reflexivity].
    - subst. constructor.
  Qed.
  Lemma enters_live ov c e fr a k s c' : enters ov c e fr -> get_attrs e = Some a -> handle_inert_attrs (ev_attr E) (attrs_now ov a) c = Ok (k, s, c') ->
    exists c2, ctx_at fr c2 /\ handle_inert_attrs (ev_attr E) a c2 = Ok (k, s, c').
  Proof.
    intros He Ha H. destruct He as [[-> Hc]|(a0 & s0 & c1 & -> & Ha0 & Hc & Hh)]; [eauto|].
    rewrite Ha in Ha0. inversion Ha0; subst a0. cbn [attrs_now] in H. pose proof (handle_again E _ _ _ _ _ Hh) as [Hh2 Hs]. rewrite Hh2 in H. inversion H; subst. eauto.
  Qed.
  Ltac now_ctx :=
    match goal with
    | He : enters ?ov ?c ?e ?fr, H : handle_inert_attrs _ (attrs_now ?ov ?a) ?c = Ok _ |- _ =>
        let h1 := fresh in let h2 := fresh in let h3 := fresh in let c2 := fresh "c2" in let h4 := fresh "Hlive" in let h5 := fresh "Hlive2" in
        destruct (enters_now E c0 ov c e fr a _ _ _ He eq_refl H) as (h1 & h2 & h3);
        destruct (enters_live ov c e fr a _ _ _ He eq_refl H) as (c2 & h4 & h5); rewrite h2 in *
    | _ => idtac
    end.
  Ltac nleaf :=
    repeat match goal with
    | |- notes [] [] => constructor
    | |- notes (_ ++ _) (_ ++ _) => apply notes_app
    | |- notes (here PNode _ _ :: _) _ => constructor; [eapply nt_live; [|eassumption]; eassumption|]
    | |- notes (here _ _ _ :: _) _ => constructor; [apply nt_not; discriminate|]
    | |- notes (mk_node PNode _ ?a (Some _) :: _) _ => constructor; [eapply nt_mac; [eassumption|eassumption|eapply entered; eassumption]|]
    | H : walk_expr _ None _ ?e _ = Ok (?e', _), IH : N_expr ?e |- notes (nodes _ _ ?e) (nodes _ _ ?e') => eapply IH; [exact H|assumption|actx|intros _; reflexivity]
    | H : walk_mac _ _ ?e _ = Ok (?e', _), IH : N_mac ?e |- notes (mac_nodes _ ?e) (mac_nodes _ ?e') => eapply IH; [exact H|assumption|actx]
    | H : walk_item _ _ ?e _ = Ok (?e', _), IH : N_item ?e |- notes (item_nodes _ ?e) (item_nodes _ ?e') => eapply IH; [exact H|assumption|actx]
    | H : walk_stmt _ NotTarget _ ?e _ = Ok (?e', _), IH : N_stmt ?e |- notes (stmt_nodes false _ ?e) (stmt_nodes false _ ?e') =>
        eapply (IH NotTarget); [exact H|assumption|actx]
    | H : mapM (walk_expr _ None _) ?es _ = Ok (?es', _) |- notes (flat_map _ ?es) (flat_map _ ?es') => eapply es_notes; [|exact H| |actx]; assumption
    | H : optM _ ?es _ = Ok (?es', _) |- notes (opt_list _ ?es) (opt_list _ ?es') => eapply opt_notes; [|exact H| |actx]; assumption
    | H : mapiM _ 0 ?b _ = Ok (?b', _) |- notes (last_map _ _ ?b) (last_map _ _ ?b') =>
        first [eapply (block_notes FnBlockTail); [reflexivity| |reflexivity|exact H| |actx]; assumption
              |eapply (block_notes BlockTail); [reflexivity| |reflexivity|exact H| |actx]; assumption]
    | H : mapM _ ?es _ = Ok (?es', _), HW : Forall (fun x => written _) ?es, HD : Forall ?P ?es |- notes (flat_map _ ?es) (flat_map _ ?es') =>
        eapply (list_notes _ _ _ _ P); [exact HD|exact H|exact HW|];
        cbv beta; let H1 := fresh in let H2 := fresh in let H3 := fresh in intros ? H1 H2 ? ? ? H3; solve [eapply H1; [exact H3|exact H2|actx]]
    end.
  Lemma leaf_notes ov c e t a fr fr2 : enters ov c e fr -> get_attrs e = Some a -> is_leaf e = true -> tail_ok t ov e ->
    notes [here (leaf_place t) fr a] [here (leaf_place t) fr2 (attrs_now ov a)].
  Proof.
    intros He Ha Hl Ht. constructor; [|constructor]. destruct He as [[-> Hc]|(a0 & s0 & c1 & -> & Ha0 & Hc & Hh)].
    - cbn [tail_ok] in Ht. rewrite (Ht Hl). apply nt_not. discriminate.
    - cbn [tail_ok] in Ht. subst t. rewrite Ha in Ha0. inversion Ha0; subst. eapply nt_live; [exact Hc|exact Hh].
  Qed.

  Lemma notes_all : (forall x, N_expr x) /\ (forall x, N_stmt x) /\ (forall x, N_item x) /\ (forall x, N_impl x) /\ (forall x, N_trait x) /\
    (forall x, N_arm x) /\ (forall x, N_field x) /\ (forall x, N_mac x) /\ (forall x, N_ev x).
  Proof.
    apply syntax_ind2; intros.
    all: match goal with
         | |- N_stmt _ => intros tk c cnt s' cnt' fr fr2 Hwalk Hw Hb
         | |- N_expr _ => intros tl ov c1 cnt e' cnt' fr fr2 Hwalk Hw Hb Htail
         | _ => intros c1 cnt i' cnt' fr fr2 Hwalk Hw Hb
         end; scbn Hw; wsplit.
    all: match goal with
         | |- notes (nodes _ _ (ETry _ _ _)) _ => idtac
         | |- notes (nodes _ _ (EReturn _ _ _)) _ => idtac
         | |- notes (nodes _ _ (EClosure _ _ _ _)) _ => idtac
         | |- notes (nodes _ _ (EContinue _ _)) _ => wcbn E Hwalk; winv; ncbn; eapply leaf_notes; [eassumption|reflexivity..|exact Htail]
         | |- notes (nodes _ _ (EInfer _ _)) _ => wcbn E Hwalk; winv; ncbn; eapply leaf_notes; [eassumption|reflexivity..|exact Htail]
         | |- notes (nodes _ _ (ELit _ _ _)) _ => wcbn E Hwalk; winv; ncbn; eapply leaf_notes; [eassumption|reflexivity..|exact Htail]
         | |- notes (nodes _ _ (EPath _ _)) _ => wcbn E Hwalk; winv; ncbn; eapply leaf_notes; [eassumption|reflexivity..|exact Htail]
         | |- notes (stmt_nodes _ _ (SExpr _ _)) _ => idtac
         | |- notes (arm_nodes _ _) _ => idtac
         | |- notes (mac_nodes _ _) _ => idtac
         | |- notes (item_nodes _ (IMacro _ _ _ _)) _ => idtac
         | _ => wcbn E Hwalk; winv; now_ctx; ncbn; nleaf
         end.
    - apply (proj1 dead_nodes). blk.
    - (* closure *)
      apply closure_Ok in Hwalk. destruct Hwalk as (s & c2 & body' & Hh & -> & Hbody). cbv zeta in *. now_ctx. ncbn. nleaf.
      destruct Hbody as [(ba & lbl & bsp & b & s3 & c3' & b' & -> & -> & Hh3 & Hb3)|[Hnb Hbody]].
      + cbn [stmts_of] in H0. scbn H1. wsplit. assert (Hca : ctx_at (FClosure a hd out :: FAttrs a :: fr) (closure_ctx (foreign a) hd out c2)) by actx.
        ncbn. nleaf.
      + eapply tail_notes; [assumption|exact Hbody|assumption|actx].
    - (* return *)
      destruct e as [e0|]; [|wcbn E Hwalk; winv; now_ctx; ncbn; cbn [opt_list]; nleaf]. cbn [optP] in *. apply return_Ok in Hwalk. destruct Hwalk as (s & c2 & e1 & cnt1 & Hh & Hwe & Hcnt & Hwalk).
      cbv zeta in *. now_ctx.
      destruct (_ && is_hook_target c2 Return); [destruct Hwalk as (r & -> & _)|subst e']; ncbn; cbn [opt_list h_consumed]; ncbn; cbn [h_consumed]; nleaf.
    - (* try *)
      apply try_Ok in Hwalk. destruct Hwalk as (s & c2 & e1 & cnt1 & Hh & Hwe & Hcnt & Hwalk).
      cbv zeta in *. now_ctx.
      destruct (_ && is_hook_target c2 Question); [destruct Hwalk as (r & -> & _); destruct (m_exc _)|subst e']; ncbn; cbn [opt_list h_consumed]; ncbn; cbn [h_consumed]; nleaf.
    - discriminate.
    - (* expression statement *)
      apply stmt_expr_Ok in Hwalk. destruct Hwalk as (e' & -> & Hwalk). ncbn. destruct (is_target tk && _).
      + eapply tail_notes; [assumption|exact Hwalk|assumption|actx].
      + nleaf.
    - destruct name; wcbn E Hwalk; winv; ncbn; [|nleaf]. constructor; [apply nt_not; discriminate|]. apply dead_nodes. blk.
    - (* arm *)
      apply arm_Ok in Hwalk. destruct Hwalk as (g' & b' & cnt1 & Hg & -> & Hbody). ncbn. nleaf.
      destruct Hbody as [[(ba & lbl & bsp & b & ->) Hbody]|[Hnb Hbody]].
      + eapply H0; [exact Hbody|assumption|actx|discriminate].
      + eapply tail_notes; [assumption|exact Hbody|assumption|actx].
    - (* macro *)
      apply mac_Ok in Hwalk. destruct Hwalk as [(-> & -> & Hwalk)|(Hm & l & l' & -> & Hwalk & ->)]; ncbn.
      + destruct view as [l|]; [|constructor]. destruct Hwalk as [Hm|]; [|discriminate]. cbn [optP] in *. wsplit.
        apply dead_flat. rewrite Forall_forall in *. intros x Hx. apply dead_nodes. eapply bl_macro; eassumption.
      + cbn [optP] in *. wsplit. assert (Hc : ctx_at (FMacro :: fr) c1) by (apply at_macro; assumption). nleaf.
  Qed.
End Nodes.

Section Spots.
  Variable E : env.
  Variable f : fcore.
  Local Notation env := (ev_attr E).
  Lemma expands_notes it out : expands E f it out -> source it -> Forall2 (noted E (ctx_new f)) (item_nodes [] it) (item_nodes [] out).
  Proof. intros [cnt H] Hs. eapply (proj1 (proj2 (proj2 (notes_all E (ctx_new f))))); [exact H|exact Hs|constructor]. Qed.
  Lemma forall2_nth {A B} (R : A -> B -> Prop) l l' : Forall2 R l l' -> forall i x y, nth_error l i = Some x -> nth_error l' i = Some y -> R x y.
  Proof. induction 1; intros [|i] u v Hu Hv; cbn in *; try discriminate; [congruence|eauto]. Qed.
  Lemma forall2_len {A B} (R : A -> B -> Prop) l l' : Forall2 R l l' -> length l = length l'.
  Proof. induction 1; cbn; congruence. Qed.
  Lemma spot_noted it out n n' : expands E f it out -> source it -> spot it out n n' -> noted E (ctx_new f) n n'.
  Proof. intros H Hs (i & H1 & H2). eapply forall2_nth; [apply expands_notes; eassumption|exact H1|exact H2]. Qed.
  Lemma spot_total it out n : expands E f it out -> source it -> In n (item_nodes [] it) -> exists n', spot it out n n'.
  Proof.
    intros H Hs Hi. pose proof (forall2_len _ _ _ (expands_notes _ _ H Hs)) as Hl. apply In_nth_error in Hi. destruct Hi as [i Hi].
    destruct (nth_error (item_nodes [] out) i) as [n'|] eqn:En; [exists n', i; auto|]. apply nth_error_None in En.
    assert (Hi2 : nth_error (item_nodes [] it) i <> None) by congruence. apply nth_error_Some in Hi2. lia.
  Qed.
  Lemma spot_onto it out n' : expands E f it out -> source it -> In n' (item_nodes [] out) -> exists n, spot it out n n'.
  Proof.
    intros H Hs Hi. pose proof (forall2_len _ _ _ (expands_notes _ _ H Hs)) as Hl. apply In_nth_error in Hi. destruct Hi as [i Hi].
    destruct (nth_error (item_nodes [] it) i) as [n|] eqn:En; [exists n, i; auto|]. apply nth_error_None in En.
    assert (Hi2 : nth_error (item_nodes [] out) i <> None) by congruence. apply nth_error_Some in Hi2. lia.
  Qed.
  Lemma noted_place n n' : noted E (ctx_new f) n n' -> n_place n' = n_place n.
  Proof. intros H. inversion H; reflexivity. Qed.
  Lemma noted_cases n n' : noted E (ctx_new f) n n' ->
    (n_place n = PNode /\ exists tr, trail env (n_frames n) tr /\ reached f tr = true /\ n_attrs n' = foreign (n_attrs n)) \/
    (n_place n <> PNode /\ n_attrs n' = n_attrs n /\ n_mac n' = n_mac n) \/
    (unreached env f (n_frames n) /\ n_attrs n' = n_attrs n /\ n_mac n' = n_mac n).
  Proof.
    intros H. inversion H as [fr fr' a c s c1 Hc Hh|fr fr' a c s c1 m m' Hc Hh Hm|p fr fr' a m Hp|p fr fr' a m Hb]; subst; cbn [n_place n_frames n_attrs n_mac here].
    - left. split; [reflexivity|]. apply at_trail in Hc. destruct Hc as (tr & Ht & Hr & _). eauto.
    - left. split; [reflexivity|]. apply at_trail in Hc. destruct Hc as (tr & Ht & Hr & _). eauto.
    - right. left. auto.
    - right. right. split; [|auto]. eapply blocked_unreached; eassumption.
  Qed.
  Lemma noted_readable n n' : noted E (ctx_new f) n n' -> n_place n = PNode -> forall tr, trail env (n_frames n) tr -> reached f tr = true ->
    exists es, node_events env (n_attrs n) es.
  Proof.
    intros H Hp tr Ht Hr. assert (Hx : forall a c r, handle_inert_attrs env a c = Ok r -> exists es, node_events env a es).
    { intros a c r Hh. unfold handle_inert_attrs in Hh. apply RenderProofs.bindR_Ok in Hh. destruct Hh as ([i k] & Hh & _). apply extract_ok in Hh. destruct Hh as (es & Hes & _). eauto. }
    inversion H; subst; cbn [n_place n_frames n_attrs here] in *; [eauto|eauto|congruence|].
    exfalso. match goal with Hb : blocked _ _ _ |- _ => apply blocked_unreached in Hb; pose proof (unreached_not _ _ _ _ Hb Ht) end. congruence.
  Qed.
  Lemma noted_mac n n' m : noted E (ctx_new f) n n' -> n_mac n = Some m -> n_mac n' = Some m \/
    exists m' p d sp ts l l' tr, n_mac n' = Some m' /\ m = Mac p d sp ts (Some l) /\ m' = Mac p d sp (flat_map vtoks l') (Some l') /\ map ev_bare l' = map ev_bare l /\
      trail env (n_inside n) tr /\ reached f tr = true /\ the_macros f tr = true /\ n_place n = PNode.
  Proof.
    intros H Hm. inversion H as [fr fr' a c s c1 Hc Hh|fr fr' a c s c1 m0 m' Hc Hh Hx|p fr fr' a m0 Hp|p fr fr' a m0 Hb]; subst; cbn [n_place n_frames n_attrs n_mac here n_inside] in *;
      try (left; exact Hm).
    inversion Hm; subst m0. destruct Hx as [[_ ->]|(Hin & Hbare & Hx)]; [left; reflexivity|right].
    destruct m as [p d sp ts v]. destruct Hx as [Hv (l' & ->)]. destruct v as [l|]; [|congruence].
    assert (Ha : ctx_at E (ctx_new f) (FAttrs a :: fr) c1) by (eapply at_attrs; eassumption). apply at_trail in Ha. destruct Ha as (tr & Ht & Hr & He).
    exists (Mac p d sp (flat_map vtoks l') (Some l')), p, d, sp, ts, l, l', tr. repeat split; auto.
    - cbn [mac_bare] in Hbare. inversion Hbare. reflexivity.
    - rewrite <- (ie_macros _ _ _ He). exact Hin.
  Qed.
End Spots.
