(** Every position of a program is treated according to the context at that position.  *)
From Coq Require Import String Ascii Bool Arith Lia List.
From Verif Require Import Base Tokens Method Paths Context Flavor Attrs Syntax SyntaxInd Render Walker AttrSpec AttrProofs SiteSpec ProgSpec WalkFacts BareProofs.
Import ListNotations.
Open Scope string_scope.
Open Scope list_scope.
Open Scope monad_scope.

Lemma written_app a b : written (a ++ b) <-> written a /\ written b.
Proof.
  unfold written, hooks_of. rewrite flat_map_app. split; [apply app_eq_nil|]. intros [-> ->]. reflexivity.
Qed.
Lemma written_flat {A} (f : A -> list expr) l : written (flat_map f l) -> Forall (fun x => written (f x)) l.
Proof. induction l as [|x l IH]; cbn [flat_map]; intros H; [constructor|]. apply written_app in H. constructor; tauto. Qed.
Lemma written_opt (o : option expr) : written (opt_list subs o) -> optP (fun x => written (subs x)) o.
Proof. destruct o; simpl; tauto. Qed.
Lemma written_self e : written (subs e) -> forall h o r, e <> EHook h o r.
Proof. intros H h o r ->. cbn [subs] in H. apply written_app in H. destruct H as [_ H]. discriminate. Qed.
Lemma not_hook_on k e : (forall h o r, e <> EHook h o r) -> hook_on k e = None /\ under_hook k e = e /\ forall A (f : expr -> A), unhook k f e = f e.
Proof. intros H. destruct e; auto. exfalso. eapply H. reflexivity. Qed.
Lemma written_on k e : written (subs e) -> hook_on k e = None /\ under_hook k e = e /\ forall A (f : expr -> A), unhook k f e = f e.
Proof. intros H. apply not_hook_on, written_self, H. Qed.

Section Sites.
  Variable E : env.
  Variable c0 : ctx.     (* the context of the root attribute *)

  (** the context at a position *)
  Inductive ctx_at : list frame -> ctx -> Prop :=
  | at_root : ctx_at [] c0
  | at_attrs : forall l fr c k s c', ctx_at fr c -> handle_inert_attrs (ev_attr E) l c = Ok (k, s, c') -> ctx_at (FAttrs l :: fr) c'
  | at_scope : forall fr c, ctx_at fr c -> ctx_at (FScope :: fr) (for_sub_scope c)
  | at_fn : forall s fr c, ctx_at fr c -> ctx_at (FFn s :: fr) (update_fn_info c (FnInfo s))
  | at_closure : forall a hd out fr c, ctx_at fr c -> ctx_at (FClosure a hd out :: fr) (closure_ctx (foreign a) hd out c)
  | at_macro : forall fr c, ctx_at fr c -> hook_in_macros c = true -> ctx_at (FMacro :: fr) c.
  Inductive blocked : list frame -> Prop :=
  | bl_dead : forall fr, blocked (FDead :: fr)
  | bl_macro : forall fr c, ctx_at fr c -> hook_in_macros c = false -> blocked (FMacro :: fr)
  | bl_more : forall f fr, blocked fr -> blocked (f :: fr).

  (** what happens at a position *)
  Definition eligible (c : ctx) (k : site_kind) (e : expr) : bool :=
    match k with KTry => true | KReturn => ret_eligible c e | KTail fn => tail_eligible c fn e end.
  Definition own_attrs_cut (e : expr) : expr := set_attrs (foreign (attrs_of e)) e.
  Definition expect (c : ctx) (cnt : counter) (s s' : site) (cnt1 : counter) : Prop :=
    let k := kind_of (s_kind s) in
    let counted := negb (is_skipped c) && eligible c (s_kind s) (s_target s') in
    cnt1 = (if counted then count_up k cnt else cnt) /\
    if counted && is_hook_target c k
    then let h := mk_hook k (get_count k cnt1)
                          (match s_kind s with KTail _ => ts_span (etoks (s_target s')) | _ => s_span s end)
                          (etoks (own_attrs_cut (s_whole s))) c
                          (match s_kind s with
                           | KTry => if m_exc (fval (cx_method c)) then Some (foreign (attrs_of (s_whole s)), s_span s) else None
                           | _ => None
                           end) in
         exists r, s_hook s' = Some (h, r) /\ rendered E h (s_target s') r
    else s_hook s' = None.
  (** the attributes of [e] are still to be handled, or were handled already *)
  Definition enters (ov : option (list attr)) (c : ctx) (e : expr) (fr : list frame) : Prop :=
    (ov = None /\ ctx_at fr c) \/
    (exists a s c1, ov = Some (foreign a) /\ get_attrs e = Some a /\ ctx_at fr c1 /\ handle_inert_attrs (ev_attr E) a c1 = Ok (foreign a, s, c)).
  (** a part of the program and what became of it *)
  Definition walked (e e' : expr) : Prop :=
    exists ov c cnt cnt' fr, walk_expr E ov c e cnt = Ok (e', cnt') /\ written (subs e) /\ ov_ok ov e /\ enters ov c e fr.
  Inductive refine : counter -> list site -> list site -> counter -> Prop :=
  | rf_nil : forall c, refine c [] [] c
  | rf_live : forall c s s' cnt cnt1 l l' cnt2, ctx_at (s_frames s) c -> s_kind s' = s_kind s -> s_span s' = s_span s ->
      walked (s_target s) (s_target s') -> expect c cnt s s' cnt1 -> refine cnt1 l l' cnt2 -> refine cnt (s :: l) (s' :: l') cnt2
  | rf_dead : forall s s' cnt l l' cnt2, blocked (s_frames s) -> s_kind s' = s_kind s -> s_span s' = s_span s ->
      s_target s' = s_target s -> s_hook s' = None -> refine cnt l l' cnt2 -> refine cnt (s :: l) (s' :: l') cnt2.
  Lemma refine_app a a' b b' : forall c c1 c2, refine c a a' c1 -> refine c1 b b' c2 -> refine c (a ++ b) (a' ++ b') c2.
  Proof. intros c c1 c2 H. revert c2. induction H; intros c3 Hc3; cbn [app]; [exact Hc3|eapply rf_live; eauto|eapply rf_dead; eauto]. Qed.
  Lemma flat_refine {A} (f : A -> M A) (g g' : A -> list site) l c l' c' :
    Forall (fun x => forall c y c', f x c = Ok (y, c') -> refine c (g x) (g' y) c') l -> chain f c l l' c' -> refine c (flat_map g l) (flat_map g' l') c'.
  Proof.
    intros HF H. induction H; [constructor|]. inversion HF as [|? ? Hx Hl]; subst. cbn [flat_map]. eapply refine_app; [eapply Hx, H|]. auto.
  Qed.
  Lemma last_refine {A} (f1 f2 : A -> M A) (g1 g2 g1' g2' : A -> list site) l c l' c' :
    Forall (fun x => (forall c y c', f1 x c = Ok (y, c') -> refine c (g1 x) (g1' y) c') /\ (forall c y c', f2 x c = Ok (y, c') -> refine c (g2 x) (g2' y) c')) l ->
    last_chain f1 f2 c l l' c' -> refine c (last_map g1 g2 l) (last_map g1' g2' l') c'.
  Proof.
    intros HF H. induction H as [|c x y c1 H|c x y c1 x2 l y2 l' c2 H HC IH]; [constructor| |]; inversion HF as [|? ? [Hx Hx'] Hl]; subst.
    - cbn [last_map]. apply Hx', H.
    - change (last_map g1 g2 (x :: x2 :: l)) with (g1 x ++ last_map g1 g2 (x2 :: l)).
      change (last_map g1' g2' (y :: y2 :: l')) with (g1' y ++ last_map g1' g2' (y2 :: l')). eapply refine_app; [apply Hx, H|]. apply IH, Hl.
  Qed.

  (** * Unreached parts *)
  Definition D_expr (e : expr) : Prop := forall fr fr2 cnt, written (subs e) -> blocked fr -> refine cnt (sites fr e) (sites fr2 e) cnt.
  Definition D_stmt (s : stmt) : Prop := forall t fr fr2 cnt, written (stmt_subs s) -> blocked fr -> refine cnt (stmt_sites t fr s) (stmt_sites t fr2 s) cnt.
  Definition D_item (i : item) : Prop := forall fr fr2 cnt, written (item_subs i) -> blocked fr -> refine cnt (item_sites fr i) (item_sites fr2 i) cnt.
  Definition D_impl (i : impl_item) : Prop := forall fr fr2 cnt, written (impl_subs i) -> blocked fr -> refine cnt (impl_sites fr i) (impl_sites fr2 i) cnt.
  Definition D_trait (i : trait_item) : Prop := forall fr fr2 cnt, written (trait_subs i) -> blocked fr -> refine cnt (trait_sites fr i) (trait_sites fr2 i) cnt.
  Definition D_arm (i : arm) : Prop := forall fr fr2 cnt, written (arm_subs i) -> blocked fr -> refine cnt (arm_sites fr i) (arm_sites fr2 i) cnt.
  Definition D_field (i : fieldv) : Prop := forall fr fr2 cnt, written (field_subs i) -> blocked fr -> refine cnt (field_sites fr i) (field_sites fr2 i) cnt.
  Definition D_mac (i : mac) : Prop := forall fr fr2 cnt, written (mac_subs i) -> blocked fr -> refine cnt (mac_sites fr i) (mac_sites fr2 i) cnt.
  Definition D_ev (i : evaluable) : Prop := forall fr fr2 cnt, written (ev_subs i) -> blocked fr -> refine cnt (ev_sites fr i) (ev_sites fr2 i) cnt.

  Lemma dead_flat {A} (g g' : A -> list site) l cnt : Forall (fun x => refine cnt (g x) (g' x) cnt) l -> refine cnt (flat_map g l) (flat_map g' l) cnt.
  Proof. induction 1; cbn [flat_map]; [constructor|eapply refine_app; eassumption]. Qed.
  Lemma dead_last {A} (g1 g2 g1' g2' : A -> list site) l cnt : Forall (fun x => refine cnt (g1 x) (g1' x) cnt /\ refine cnt (g2 x) (g2' x) cnt) l ->
    refine cnt (last_map g1 g2 l) (last_map g1' g2' l) cnt.
  Proof.
    induction 1 as [|x l [H1 H2] HF IH]; [constructor|]. destruct l as [|x2 l]; [exact H2|].
    change (last_map g1 g2 (x :: x2 :: l)) with (g1 x ++ last_map g1 g2 (x2 :: l)).
    change (last_map g1' g2' (x :: x2 :: l)) with (g1' x ++ last_map g1' g2' (x2 :: l)). eapply refine_app; eassumption.
  Qed.
  Lemma Forall_mp {A} (P Q R : A -> Prop) l : (forall x, P x -> Q x -> R x) -> Forall P l -> Forall Q l -> Forall R l.
  Proof. intros H HP HQ. induction HP; inversion HQ; subst; constructor; auto. Qed.
  Lemma dead_site k fr fr2 t t2 w w2 sp cnt : blocked fr -> t = t2 -> refine cnt [mk_site k fr t w sp None] [mk_site k fr2 t2 w2 sp None] cnt.
  Proof. intros H ->. apply rf_dead; try reflexivity; [exact H|constructor]. Qed.
  Lemma dead_tail e fn fr fr2 cnt : D_expr e -> written (subs e) -> blocked fr ->
    refine cnt (at_tail (sites fr) fn fr e) (at_tail (sites fr2) fn fr2 e) cnt.
  Proof.
    intros He Hw Hb. unfold at_tail. destruct (written_on TailExpr e Hw) as (-> & -> & Hu). rewrite !Hu. eapply refine_app; [apply He; assumption|].
    destruct (verbatim e); [constructor|]. apply dead_site; [apply bl_more, Hb|reflexivity].
  Qed.

  Ltac wsplit :=
    repeat match goal with
    | H : written (_ ++ _) |- _ => apply written_app in H; destruct H
    | H : written (flat_map _ _) |- _ => apply written_flat in H
    | H : written (opt_list subs _) |- _ => apply written_opt in H
    end.
  Ltac blk := repeat first [assumption | apply bl_dead | apply bl_more].
  Ltac dead :=
    repeat match goal with
    | |- refine _ (_ ++ _) (_ ++ _) _ => eapply refine_app
    | |- refine _ [] [] _ => constructor
    | IH : D_expr ?e |- refine _ (sites _ ?e) (sites _ ?e) _ => apply IH; [assumption|blk]
    | IH : D_mac ?e |- refine _ (mac_sites _ ?e) (mac_sites _ ?e) _ => apply IH; [assumption|blk]
    | IH : D_item ?e |- refine _ (item_sites _ ?e) (item_sites _ ?e) _ => apply IH; [assumption|blk]
    | IH : D_stmt ?e |- refine _ (stmt_sites _ _ ?e) (stmt_sites _ _ ?e) _ => apply IH; [assumption|blk]
    | |- refine _ (opt_list _ ?o) (opt_list _ ?o) _ => destruct o; cbn [opt_list optP] in *
    | HW : Forall (fun _ => written _) ?b, HD : Forall ?P ?b |- refine _ (last_map _ _ ?b) (last_map _ _ ?b) _ =>
        apply dead_last; eapply (Forall_mp P); [|exact HD|exact HW]; cbv beta; let H1 := fresh in let H2 := fresh in intros ? H1 H2; split; solve [dead1]
    | HW : Forall (fun _ => written _) ?b, HD : Forall ?P ?b |- refine _ (flat_map _ ?b) (flat_map _ ?b) _ =>
        apply dead_flat; eapply (Forall_mp P); [|exact HD|exact HW]; cbv beta; let H1 := fresh in let H2 := fresh in intros ? H1 H2; solve [dead1]
    end
  with dead1 :=
    match goal with
    | IH : D_stmt ?e |- refine _ (stmt_sites _ _ ?e) _ _ => apply IH; [assumption|blk]
    | IH : D_expr ?e |- refine _ (sites _ ?e) _ _ => apply IH; [assumption|blk]
    | IH : D_item ?e |- refine _ (item_sites _ ?e) _ _ => apply IH; [assumption|blk]
    | IH : D_impl ?e |- refine _ (impl_sites _ ?e) _ _ => apply IH; [assumption|blk]
    | IH : D_trait ?e |- refine _ (trait_sites _ ?e) _ _ => apply IH; [assumption|blk]
    | IH : D_arm ?e |- refine _ (arm_sites _ ?e) _ _ => apply IH; [assumption|blk]
    | IH : D_field ?e |- refine _ (field_sites _ ?e) _ _ => apply IH; [assumption|blk]
    | IH : D_ev ?e |- refine _ (ev_sites _ ?e) _ _ => apply IH; [assumption|blk]
    end.
  Ltac dcbn :=
    cbn [sites stmt_sites item_sites impl_sites trait_sites arm_sites field_sites mac_sites ev_sites];
    try fold sites; try fold stmt_sites; try fold item_sites; try fold impl_sites; try fold trait_sites; try fold arm_sites; try fold field_sites;
    try fold mac_sites; try fold ev_sites.
  Ltac scbn H :=
    cbn [subs stmt_subs item_subs impl_subs trait_subs arm_subs field_subs mac_subs ev_subs] in H;
    try fold subs in H; try fold stmt_subs in H; try fold item_subs in H; try fold impl_subs in H; try fold trait_subs in H;
    try fold arm_subs in H; try fold field_subs in H; try fold mac_subs in H; try fold ev_subs in H.

  Lemma dead_all : (forall x, D_expr x) /\ (forall x, D_stmt x) /\ (forall x, D_item x) /\ (forall x, D_impl x) /\ (forall x, D_trait x) /\
    (forall x, D_arm x) /\ (forall x, D_field x) /\ (forall x, D_mac x) /\ (forall x, D_ev x).
  Proof.
    apply syntax_ind2; intros.
    all: match goal with
         | |- D_stmt _ => intros tt fr fr2 cnt Hw Hb
         | _ => intros fr fr2 cnt Hw Hb
         end; scbn Hw; wsplit; dcbn.
    all: try solve [dead].
    - (* closure *)
      destruct body; try (apply dead_tail; [assumption|assumption|blk]). cbn [stmts_of] in *. scbn H1. wsplit. dead.
    - destruct e as [e0|]; [|constructor]. cbn [optP] in *. destruct (written_on Return e0 H0) as (-> & -> & Hu). rewrite !Hu.
      eapply refine_app; [dead|apply dead_site; [blk|reflexivity]].
    - destruct (written_on Question e H0) as (-> & -> & Hu). rewrite !Hu.
      eapply refine_app; [dead|apply dead_site; [blk|reflexivity]].
    - exfalso. discriminate.
    - destruct semi; [dead|]. destruct tt; [|dead]. apply dead_tail; assumption.
    - destruct name; dead.
    - eapply refine_app; [dead|]. destruct body; try dead; apply dead_tail; assumption.
    - destruct view; [|constructor]. cbn [optP] in *. wsplit. dead.
  Qed.

  (** * The walk *)
  Definition is_block (e : expr) : bool := match e with EBlock _ _ _ _ => true | _ => false end.
  Lemma is_block_true e : is_block e = true -> exists a l sp b, e = EBlock a l sp b.
  Proof. destruct e; try discriminate. eauto. Qed.
  Lemma is_block_false e : is_block e = false -> forall a l sp b, e <> EBlock a l sp b.
  Proof. destruct e; discriminate. Qed.
  Lemma walk_shape ov c e cnt e' cnt' : walk_expr E ov c e cnt = Ok (e', cnt') -> (forall h o r, e <> EHook h o r) ->
    (forall k, hook_on k e' = None /\ under_hook k e' = e' /\ forall A (f : expr -> A), unhook k f e' = f e') /\ verbatim e' = verbatim e /\ is_block e' = is_block e.
  Proof.
    intros H Hn. destruct e; try (exfalso; eapply Hn; reflexivity).
    all: match type of H with
         | walk_expr _ _ _ (ETry _ _ _) _ = _ => apply try_Ok in H
         | walk_expr _ _ _ (EReturn _ _ (Some _)) _ = _ => apply return_Ok in H
         | walk_expr _ _ _ (EReturn _ _ ?o) _ = _ => destruct o; [apply return_Ok in H|wcbn E H; winv]
         | _ => wcbn E H; winv
         end.
    all: try (split; [intros ?; split; [|split]|split]; reflexivity).
    - destruct H as (s & c1 & e1 & cnt1 & _ & _ & _ & H). cbv zeta in H.
      destruct (_ && is_hook_target c1 Return); [destruct H as (r & -> & _)|subst e']; (split; [intros ?; split; [|split]|split]; reflexivity).
    - destruct H as (s & c1 & e1 & cnt1 & _ & _ & _ & H). cbv zeta in H.
      destruct (_ && is_hook_target c1 Question); [destruct H as (r & -> & _); destruct (m_exc _)|subst e'];
        (split; [intros ?; split; [|split]|split]; try reflexivity; cbn [hook_on under_hook unhook own h_consumed]; unfold own; cbn [h_consumed]; try rewrite andb_false_r; reflexivity).
  Qed.

  Lemma enters_now ov c e fr a k s c' : enters ov c e fr -> get_attrs e = Some a -> handle_inert_attrs (ev_attr E) (attrs_now ov a) c = Ok (k, s, c') ->
    ctx_at (FAttrs a :: fr) c' /\ foreign (attrs_now ov a) = foreign a /\ s = is_skipped c'.
  Proof.
    intros He Ha H. split; [|split; [|apply (handle_again E _ _ _ _ _ H)]].
    - destruct He as [[-> Hc]|(a0 & s0 & c1 & -> & Ha0 & Hc & Hh)].
      + eapply at_attrs; [exact Hc|exact H].
      + rewrite Ha in Ha0. inversion Ha0; subst a0. cbn [attrs_now] in H. apply handle_again in Hh as Hh2. destruct Hh2 as [Hh2 _]. rewrite Hh2 in H.
        inversion H; subst. eapply at_attrs; [exact Hc|exact Hh].
    - destruct He as [[-> Hc]|(a0 & s0 & c1 & -> & Ha0 & Hc & Hh)]; [reflexivity|]. rewrite Ha in Ha0. inversion Ha0; subst. apply foreign_idem.
  Qed.
  Lemma enters_none c e fr : ctx_at fr c -> enters None c e fr.
  Proof. left. auto. Qed.

  Definition tk_opt (tk : tail_kind) : option bool := match tk with FnBlockTail => Some true | BlockTail => Some false | NotTarget => None end.
  Definition R_expr (e : expr) : Prop := forall ov c cnt e' cnt' fr fr2, walk_expr E ov c e cnt = Ok (e', cnt') -> written (subs e) -> enters ov c e fr ->
    refine cnt (sites fr e) (sites fr2 e') cnt'.
  Definition R_stmt (s : stmt) : Prop := forall tk c cnt s' cnt' fr fr2, walk_stmt E tk c s cnt = Ok (s', cnt') -> written (stmt_subs s) -> ctx_at fr c ->
    refine cnt (stmt_sites (tk_opt tk) fr s) (stmt_sites (tk_opt tk) fr2 s') cnt'.
  Definition R_item (i : item) : Prop := forall c cnt i' cnt' fr fr2, walk_item E c i cnt = Ok (i', cnt') -> written (item_subs i) -> ctx_at fr c ->
    refine cnt (item_sites fr i) (item_sites fr2 i') cnt'.
  Definition R_impl (i : impl_item) : Prop := forall c cnt i' cnt' fr fr2, walk_impl_item E c i cnt = Ok (i', cnt') -> written (impl_subs i) -> ctx_at fr c ->
    refine cnt (impl_sites fr i) (impl_sites fr2 i') cnt'.
  Definition R_trait (i : trait_item) : Prop := forall c cnt i' cnt' fr fr2, walk_trait_item E c i cnt = Ok (i', cnt') -> written (trait_subs i) -> ctx_at fr c ->
    refine cnt (trait_sites fr i) (trait_sites fr2 i') cnt'.
  Definition R_arm (i : arm) : Prop := forall c cnt i' cnt' fr fr2, walk_arm E c i cnt = Ok (i', cnt') -> written (arm_subs i) -> ctx_at fr c ->
    refine cnt (arm_sites fr i) (arm_sites fr2 i') cnt'.
  Definition R_field (i : fieldv) : Prop := forall c cnt i' cnt' fr fr2, walk_field E c i cnt = Ok (i', cnt') -> written (field_subs i) -> ctx_at fr c ->
    refine cnt (field_sites fr i) (field_sites fr2 i') cnt'.
  Definition R_mac (i : mac) : Prop := forall c cnt i' cnt' fr fr2, walk_mac E c i cnt = Ok (i', cnt') -> written (mac_subs i) -> ctx_at fr c ->
    refine cnt (mac_sites fr i) (mac_sites fr2 i') cnt'.
  Definition R_ev (i : evaluable) : Prop := forall c cnt i' cnt' fr fr2, walk_evaluable E c i cnt = Ok (i', cnt') -> written (ev_subs i) -> ctx_at fr c ->
    refine cnt (ev_sites fr i) (ev_sites fr2 i') cnt'.

  Lemma tail_refine e tk c cnt e' cnt' fr fr2 : R_expr e -> is_target tk = true ->
    handle_tail_with E (fun ov c' => walk_expr E ov c' e) e c tk cnt = Ok (e', cnt') -> written (subs e) -> ctx_at fr c ->
    refine cnt (at_tail (sites fr) (is_fn_tail tk) fr e) (at_tail (sites fr2) (is_fn_tail tk) fr2 e') cnt'.
  Proof.
    intros He Ht H Hw Hc. apply tail_Ok in H. destruct (get_attrs e) as [a|] eqn:Ea.
    2: { destruct H as [-> ->]. destruct (verbatim e) eqn:Ev.
         - unfold at_tail. destruct (written_on TailExpr e Hw) as (-> & -> & Hu). rewrite !Hu, Ev, !app_nil_r. destruct e; try discriminate. constructor.
         - exfalso. destruct e; try discriminate. eapply written_self; [exact Hw|reflexivity]. }
    destruct H as (s & c1 & e1 & cnt1 & Hh & Hwalk & Hcnt & H). cbv zeta in Hcnt, H. rewrite Ht in Hcnt, H. cbn [andb] in Hcnt, H.
    pose proof (handle_again E _ _ _ _ _ Hh) as [_ Hs].
    pose proof (walk_shape _ _ _ _ _ _ Hwalk (written_self e Hw)) as (Hsh & Hv & _). destruct (Hsh TailExpr) as (Hs1 & Hs2 & Hs3).
    assert (Hr : refine cnt (sites fr e) (sites fr2 e1) cnt1).
    { eapply He; [exact Hwalk|exact Hw|]. right. exists a, s, c. auto. }
    assert (Hbare : walked e e1).
    { exists (Some (foreign a)), c1, cnt, cnt1, fr. split; [exact Hwalk|]. split; [exact Hw|]. split; [unfold ov_ok; rewrite Ea; apply foreign_idem|].
      right. exists a, s, c. auto. }
    assert (Hve : verbatim e = false) by (destruct e; try reflexivity; discriminate).
    assert (Hat : attrs_of e = a) by (unfold attrs_of; rewrite Ea; reflexivity).
    unfold at_tail. destruct (written_on TailExpr e Hw) as (-> & -> & Hu). rewrite Hu, Hve, Hat.
    assert (Hn : forall h o r, e1 <> EHook h o r \/ own TailExpr h = false).
    { intros h o r. destruct (own TailExpr h) eqn:Eo; [|auto]. left. intros ->. cbn [hook_on] in Hs1. rewrite Eo in Hs1. discriminate. }
    assert (Hx : exists h', e' = match h' with Some h => h | None => e1 end /\
                 unhook TailExpr (sites fr2) e' = sites fr2 e1 /\ under_hook TailExpr e' = e1 /\
                 if tail_eligible c1 (is_fn_tail tk) e1 && negb s && is_hook_target c1 TailExpr
                 then let h := mk_hook TailExpr (get_count TailExpr cnt') (ts_span (etoks e1)) (etoks (set_attrs (foreign a) e)) c1 None in
                      exists r, hook_on TailExpr e' = Some (h, r) /\ rendered E h e1 r
                 else hook_on TailExpr e' = None).
    { destruct (tail_eligible c1 (is_fn_tail tk) e1 && negb s && is_hook_target c1 TailExpr).
      - destruct H as (r & -> & Hren). eexists (Some _). split; [reflexivity|]. split; [reflexivity|]. split; [reflexivity|]. exists r. split; [reflexivity|exact Hren].
      - exists None. subst e'. rewrite Hs1, Hs2, Hs3. repeat split. }
    destruct Hx as (_ & _ & -> & -> & Hhk). rewrite Hv, Hve. eapply refine_app; [exact Hr|].
    eapply rf_live with (c := c1); [eapply at_attrs; eassumption|reflexivity|reflexivity|exact Hbare| |constructor].
    unfold expect. cbn [s_kind s_target s_hook kind_of s_whole s_span eligible]. unfold own_attrs_cut. rewrite Hat.
    rewrite <- Hs. rewrite (andb_comm (negb s)). split; [exact Hcnt|]. exact Hhk.
  Qed.

  Lemma tail_block e tk c cnt e' cnt' : handle_tail_with E (fun ov c' => walk_expr E ov c' e) e c tk cnt = Ok (e', cnt') -> written (subs e) ->
    is_block e = false -> is_block e' = false.
  Proof.
    intros H Hw Hb. apply tail_Ok in H. destruct (get_attrs e) as [a|]; [|destruct H as [-> _]; exact Hb].
    destruct H as (s & c1 & e1 & cnt1 & Hh & Hwalk & Hcnt & H). cbv zeta in H. destruct (_ && is_hook_target c1 TailExpr); [destruct H as (r & -> & _); reflexivity|subst].
    pose proof (walk_shape _ _ _ _ _ _ Hwalk (written_self e Hw)) as (_ & _ & ->). exact Hb.
  Qed.

  Lemma closure_tail fr a hd out body : is_block body = false ->
    sites fr (EClosure a hd out body) = at_tail (sites (FClosure a hd out :: FAttrs a :: fr)) true (FClosure a hd out :: FAttrs a :: fr) body.
  Proof. destruct body; try discriminate; reflexivity. Qed.
  Lemma arm_tail fr a pat ik guard arrow body comma : is_block body = false ->
    arm_sites fr (Arm a pat ik guard arrow body comma) = opt_list (sites fr) guard ++ at_tail (sites fr) false fr body.
  Proof. destruct body; try discriminate; reflexivity. Qed.

  Ltac actx :=
    repeat match goal with
    | |- enters None _ _ _ => apply enters_none
    | H : ctx_at ?f ?c |- ctx_at ?f ?c => exact H
    | |- ctx_at (FScope :: _) _ => apply at_scope
    | |- ctx_at (FFn _ :: _) _ => apply at_fn
    | |- ctx_at (FClosure _ _ _ :: _) _ => apply at_closure
    | H : handle_inert_attrs _ ?a ?c0 = Ok (_, _, ?c) |- ctx_at (FAttrs ?a :: _) ?c => eapply at_attrs; [|exact H]
    end.
  Lemma es_refine c es cnt es' cnt' fr fr2 : Forall R_expr es -> mapM (walk_expr E None c) es cnt = Ok (es', cnt') ->
    Forall (fun x => written (subs x)) es -> ctx_at fr c -> refine cnt (flat_map (sites fr) es) (flat_map (sites fr2) es') cnt'.
  Proof.
    intros HF H HW Hc. apply mapM_chain in H. eapply flat_refine; [|exact H]. eapply Forall_mp; [|exact HF|exact HW].
    cbv beta. intros x Hx Hx2 c1 y c2 Hy. eapply Hx; [exact Hy|exact Hx2|apply enters_none, Hc].
  Qed.
  Lemma list_refine {A} (f : A -> M A) (sb : A -> list expr) (g g' : A -> list site) (R : A -> Prop) es cnt es' cnt' : Forall R es -> mapM f es cnt = Ok (es', cnt') ->
    Forall (fun x => written (sb x)) es ->
    (forall x, R x -> written (sb x) -> forall c y c', f x c = Ok (y, c') -> refine c (g x) (g' y) c') -> refine cnt (flat_map g es) (flat_map g' es') cnt'.
  Proof.
    intros HF H HW Hc. apply mapM_chain in H. eapply flat_refine; [|exact H]. eapply Forall_mp; [|exact HF|exact HW].
    cbv beta. intros x Hx Hx2 c1 y c2 Hy. eapply Hc; eassumption.
  Qed.
  Lemma block_refine tk c b n cnt b' cnt' fr fr2 : Forall R_stmt b -> n = length b ->
    mapiM (fun j s => walk_stmt E (pos_kind tk n j) c s) 0 b cnt = Ok (b', cnt') ->
    Forall (fun x => written (stmt_subs x)) b -> ctx_at fr c ->
    refine cnt (last_map (stmt_sites None fr) (stmt_sites (tk_opt tk) fr) b) (last_map (stmt_sites None fr2) (stmt_sites (tk_opt tk) fr2) b') cnt'.
  Proof.
    intros HF -> H HW Hc. apply (block_chain0 (fun tk s => walk_stmt E tk c s)) in H. eapply last_refine; [|exact H].
    eapply Forall_mp; [|exact HF|exact HW]. cbv beta. intros x Hx Hx2. split; intros c1 y c2 Hy.
    - exact (Hx NotTarget _ _ _ _ _ _ Hy Hx2 Hc).
    - eapply Hx; eassumption.
  Qed.
  Lemma opt_refine c o cnt o' cnt' fr fr2 : optP R_expr o -> optM (walk_expr E None c) o cnt = Ok (o', cnt') ->
    optP (fun x => written (subs x)) o -> ctx_at fr c -> refine cnt (opt_list (sites fr) o) (opt_list (sites fr2) o') cnt'.
  Proof.
    intros HF H HW Hc. apply opt_Ok in H. destruct o as [x|], o' as [y|]; try contradiction; cbn [opt_list optP] in *.
    - eapply HF; [exact H|exact HW|apply enters_none, Hc].
    - subst. constructor.
  Qed.

  Ltac rleaf :=
    repeat match goal with
    | |- refine _ (_ ++ _) (_ ++ _) _ => eapply refine_app
    | |- refine ?c [] [] ?c => constructor
    | H : walk_expr _ None _ ?e _ = Ok (?e', _), IH : R_expr ?e |- refine _ (sites _ ?e) (sites _ ?e') _ => eapply IH; [exact H|assumption|actx]
    | H : walk_mac _ _ ?e _ = Ok (?e', _), IH : R_mac ?e |- refine _ (mac_sites _ ?e) (mac_sites _ ?e') _ => eapply IH; [exact H|assumption|actx]
    | H : walk_item _ _ ?e _ = Ok (?e', _), IH : R_item ?e |- refine _ (item_sites _ ?e) (item_sites _ ?e') _ => eapply IH; [exact H|assumption|actx]
    | H : walk_stmt _ NotTarget _ ?e _ = Ok (?e', _), IH : R_stmt ?e |- refine _ (stmt_sites None _ ?e) (stmt_sites None _ ?e') _ =>
        eapply (IH NotTarget); [exact H|assumption|actx]
    | H : mapM (walk_expr _ None _) ?es _ = Ok (?es', _) |- refine _ (flat_map _ ?es) (flat_map _ ?es') _ => eapply es_refine; [|exact H| |actx]; assumption
    | H : optM _ ?es _ = Ok (?es', _) |- refine _ (opt_list _ ?es) (opt_list _ ?es') _ => eapply opt_refine; [|exact H| |actx]; assumption
    | H : mapiM _ 0 ?b _ = Ok (?b', _) |- refine _ (last_map _ (stmt_sites (Some true) _) ?b) (last_map _ _ ?b') _ =>
        eapply (block_refine FnBlockTail); [|reflexivity|exact H| |actx]; assumption
    | H : mapiM _ 0 ?b _ = Ok (?b', _) |- refine _ (last_map _ (stmt_sites (Some false) _) ?b) (last_map _ _ ?b') _ =>
        eapply (block_refine BlockTail); [|reflexivity|exact H| |actx]; assumption
    | H : mapM _ ?es _ = Ok (?es', _), HW : Forall (fun x => written _) ?es, HD : Forall ?P ?es |- refine _ (flat_map _ ?es) (flat_map _ ?es') _ =>
        eapply (list_refine _ _ _ _ P); [exact HD|exact H|exact HW|];
        cbv beta; let H1 := fresh in let H2 := fresh in let H3 := fresh in intros ? H1 H2 ? ? ? H3; solve [eapply H1; [exact H3|exact H2|actx]]
    end.
  Ltac now_ctx :=
    match goal with
    | He : enters ?ov ?c ?e ?fr, H : handle_inert_attrs _ (attrs_now ?ov ?a) ?c = Ok _ |- _ =>
        let h1 := fresh in let h2 := fresh in let h3 := fresh in
        destruct (enters_now ov c e fr a _ _ _ He eq_refl H) as (h1 & h2 & h3)
    | _ => idtac
    end.

  Lemma refine_all : (forall x, R_expr x) /\ (forall x, R_stmt x) /\ (forall x, R_item x) /\ (forall x, R_impl x) /\ (forall x, R_trait x) /\
    (forall x, R_arm x) /\ (forall x, R_field x) /\ (forall x, R_mac x) /\ (forall x, R_ev x).
  Proof.
    apply syntax_ind2; intros.
    all: match goal with
         | |- R_stmt _ => intros tk c cnt s' cnt' fr fr2 Hwalk Hw Hb
         | |- R_expr _ => intros ov c1 cnt e' cnt' fr fr2 Hwalk Hw Hb
         | _ => intros c1 cnt i' cnt' fr fr2 Hwalk Hw Hb
         end; scbn Hw; wsplit.
    all: match goal with
         | |- refine _ (sites _ (ETry _ _ _)) _ _ => idtac
         | |- refine _ (sites _ (EReturn _ _ _)) _ _ => idtac
         | |- refine _ (sites _ (EClosure _ _ _ _)) _ _ => idtac
         | |- refine _ (stmt_sites _ _ (SExpr _ _)) _ _ => idtac
         | |- refine _ (arm_sites _ _) _ _ => idtac
         | |- refine _ (mac_sites _ _) _ _ => idtac
         | |- refine _ (item_sites _ (IMacro _ _ _ _)) _ _ => idtac
         | _ => wcbn E Hwalk; winv; now_ctx; dcbn; rleaf
         end.
    - apply (proj1 dead_all); [assumption|blk].
    - (* closure *)
      apply closure_Ok in Hwalk. destruct Hwalk as (s & c2 & body' & Hh & -> & Hbody). cbv zeta in *. now_ctx. rewrite H4 in Hbody. rewrite H4.
      destruct Hbody as [(ba & lbl & bsp & b & s3 & c3 & b' & -> & -> & Hh3 & Hb3)|[Hnb Hbody]].
      + cbn [stmts_of] in H0. scbn H1. wsplit. dcbn. rleaf.
      + assert (Hnb' : is_block body = false) by (destruct body; try reflexivity; exfalso; eapply Hnb; reflexivity).
        assert (Hnb2 : is_block body' = false) by (eapply tail_block; eassumption).
        rewrite !closure_tail by assumption. eapply (tail_refine body FnBlockTail); [assumption|reflexivity|exact Hbody|assumption|actx].
    - (* return *)
      destruct e as [e0|]; [|wcbn E Hwalk; winv; constructor]. cbn [optP] in *. apply return_Ok in Hwalk. destruct Hwalk as (s & c2 & e1 & cnt1 & Hh & Hwe & Hcnt & Hwalk).
      cbv zeta in *. now_ctx. rewrite H3 in Hwalk.
      pose proof (walk_shape _ _ _ _ _ _ Hwe (written_self e0 H0)) as [Hsh _]. destruct (Hsh Return) as (Hs1 & Hs2 & Hs3).
      assert (Hr : refine cnt (sites (FAttrs a :: fr) e0) (sites (FAttrs (foreign a) :: fr2) e1) cnt1) by rleaf.
      assert (Hbare : walked e0 e1) by (exists None, c2, cnt, cnt1, (FAttrs a :: fr); split; [exact Hwe|split; [assumption|split; [exact I|actx]]]).
      assert (Hx : exists e2, e' = EReturn (foreign a) sp (Some e2) /\
                 unhook Return (sites (FAttrs (foreign a) :: fr2)) e2 = sites (FAttrs (foreign a) :: fr2) e1 /\ under_hook Return e2 = e1 /\
                 if ret_eligible c2 e1 && negb s && is_hook_target c2 Return
                 then let h := mk_hook Return (get_count Return cnt') sp (etoks (EReturn (foreign a) sp (Some e0))) c2 None in
                      exists r, hook_on Return e2 = Some (h, r) /\ rendered E h e1 r
                 else hook_on Return e2 = None).
      { destruct (ret_eligible c2 e1 && negb s && is_hook_target c2 Return).
        - destruct Hwalk as (r & -> & Hren). eexists. split; [reflexivity|]. split; [reflexivity|]. split; [reflexivity|]. exists r. split; [reflexivity|exact Hren].
        - subst e'. eexists. rewrite Hs1, Hs2, Hs3. repeat split. }
      destruct Hx as (e2 & -> & Hu1 & Hu2 & Hhk). dcbn. rewrite Hu1, Hu2. destruct (written_on Return e0 H0) as (-> & -> & Hu). rewrite Hu.
      eapply refine_app; [exact Hr|].
      eapply rf_live with (c := c2); [actx|reflexivity|reflexivity|exact Hbare| |constructor].
      unfold expect. cbn [s_kind s_target s_hook kind_of s_whole s_span eligible]. unfold own_attrs_cut. cbn [attrs_of get_attrs set_attrs].
      rewrite <- H4. rewrite (andb_comm (negb s)). split; [exact Hcnt|]. exact Hhk.
    - (* try *)
      apply try_Ok in Hwalk. destruct Hwalk as (s & c2 & e1 & cnt1 & Hh & Hwe & Hcnt & Hwalk).
      cbv zeta in *. now_ctx. rewrite H3 in Hwalk.
      pose proof (walk_shape _ _ _ _ _ _ Hwe (written_self e H0)) as [Hsh _]. destruct (Hsh Question) as (Hs1 & Hs2 & Hs3).
      assert (Hr : refine cnt (sites (FAttrs a :: fr) e) (sites (FAttrs (foreign a) :: fr2) e1) cnt1) by rleaf.
      assert (Hbare : walked e e1) by (exists None, c2, cnt, cnt1, (FAttrs a :: fr); split; [exact Hwe|split; [assumption|split; [exact I|actx]]]).
      assert (Hx : exists w hk, sites fr2 e' = sites (FAttrs (foreign a) :: fr2) e1 ++ [mk_site KTry (FAttrs (foreign a) :: fr2) e1 w sp hk] /\
                 if negb s && is_hook_target c2 Question
                 then let h := mk_hook Question (get_count Question cnt') sp (etoks (ETry (foreign a) e sp)) c2
                                       (if m_exc (fval (cx_method c2)) then Some (foreign a, sp) else None) in
                      exists r, hk = Some (h, r) /\ rendered E h e1 r
                 else hk = None).
      { destruct (negb s && is_hook_target c2 Question).
        - destruct Hwalk as (r & -> & Hren). destruct (m_exc _); dcbn; eexists; eexists; (split; [reflexivity|]); exists r; (split; [reflexivity|apply Hren]).
        - subst e'. dcbn. rewrite Hs1, Hs2, Hs3. eexists. eexists. split; reflexivity. }
      destruct Hx as (w & hk & -> & Hhk). dcbn. destruct (written_on Question e H0) as (-> & -> & Hu). rewrite Hu.
      eapply refine_app; [exact Hr|].
      eapply rf_live with (c := c2); [actx|reflexivity|reflexivity|exact Hbare| |constructor].
      unfold expect. cbn [s_kind s_target s_hook kind_of s_whole s_span eligible]. unfold own_attrs_cut. cbn [attrs_of get_attrs set_attrs].
      rewrite <- H4. rewrite andb_true_r. split; [exact Hcnt|]. exact Hhk.
    - discriminate.
    - (* expression statement *)
      apply stmt_expr_Ok in Hwalk. destruct Hwalk as (e' & -> & Hwalk). dcbn. destruct semi as [sp|]; [rewrite andb_false_r in Hwalk; rleaf|].
      rewrite andb_true_r in Hwalk. destruct tk; cbn [is_target tk_opt] in *; [| |rleaf].
      + eapply (tail_refine e FnBlockTail); [assumption|reflexivity|exact Hwalk|assumption|actx].
      + eapply (tail_refine e BlockTail); [assumption|reflexivity|exact Hwalk|assumption|actx].
    - destruct name; wcbn E Hwalk; winv; dcbn; [apply dead_all; [assumption|blk]|rleaf].
    - (* arm *)
      apply arm_Ok in Hwalk. destruct Hwalk as (g' & b' & cnt1 & Hg & -> & Hbody). 
      destruct Hbody as [[(ba & lbl & bsp & b & ->) Hbody]|[Hnb Hbody]].
      + pose proof (walk_shape _ _ _ _ _ _ Hbody (written_self _ H2)) as (_ & _ & Hblk). apply is_block_true in Hblk.
        destruct Hblk as (? & ? & ? & ? & ->). dcbn. eapply refine_app; [rleaf|]. exact (H0 None c1 cnt1 _ cnt' fr fr2 Hbody H2 (enters_none _ _ _ Hb)).
      + assert (Hnb' : is_block body = false) by (destruct body; try reflexivity; exfalso; eapply Hnb; reflexivity).
        assert (Hnb2 : is_block b' = false) by (eapply tail_block; eassumption).
        rewrite !arm_tail by assumption. eapply refine_app; [rleaf|]. eapply (tail_refine body BlockTail); [assumption|reflexivity|exact Hbody|assumption|actx].
    - (* macro *)
      apply mac_Ok in Hwalk. destruct Hwalk as [(-> & -> & Hwalk)|(Hm & l & l' & -> & Hwalk & ->)]; dcbn.
      + destruct view as [l|]; [|constructor]. destruct Hwalk as [Hm|]; [|discriminate]. cbn [optP] in *. wsplit.
        apply dead_flat. rewrite Forall_forall in *. intros x Hx. apply dead_all; [auto|]. eapply bl_macro; eassumption.
      + cbn [optP] in *. wsplit. assert (Hc : ctx_at (FMacro :: fr) c1) by (apply at_macro; assumption). rleaf.
  Qed.
End Sites.
