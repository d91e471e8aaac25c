(** Basic facts for reasoning about the walker.  *)
From Coq Require Import String Ascii Bool Arith Lia List.
From Verif Require Import Base Tokens Method Paths Context Flavor Attrs Syntax SyntaxInd Render Walker MapFacts RenderProofs AttrSpec AttrProofs SiteSpec ProgSpec.
Import ListNotations.
Open Scope string_scope.
Open Scope list_scope.
Open Scope monad_scope.

Lemma bind_Ok {A B} (x : M A) (f : A -> M B) c b c2 : bind x f c = Ok (b, c2) -> exists a c1, x c = Ok (a, c1) /\ f a c1 = Ok (b, c2).
Proof. unfold bind. destruct (x c) as [[a c1]|e|m]; try discriminate. eauto. Qed.

(** running over a list, with the counter between the elements *)
Inductive chain {A B} (f : A -> M B) : counter -> list A -> list B -> counter -> Prop :=
| ch_nil : forall c, chain f c [] [] c
| ch_cons : forall c x y c1 l l' c2, f x c = Ok (y, c1) -> chain f c1 l l' c2 -> chain f c (x :: l) (y :: l') c2.
Lemma mapM_chain {A B} (f : A -> M B) l : forall c l' c', mapM f l c = Ok (l', c') -> chain f c l l' c'.
Proof.
  induction l as [|x l IH]; intros c l' c' H.
  - inversion H; subst. constructor.
  - cbn [mapM] in H. apply bind_Ok in H. destruct H as (y & c1 & H1 & H). apply bind_Ok in H. destruct H as (ys & c2 & H2 & H).
    inversion H; subst. econstructor; eauto.
Qed.
(** all statements with [f], the last with [g] *)
Inductive last_chain {A B} (f g : A -> M B) : counter -> list A -> list B -> counter -> Prop :=
| lc_nil : forall c, last_chain f g c [] [] c
| lc_one : forall c x y c1, g x c = Ok (y, c1) -> last_chain f g c [x] [y] c1
| lc_cons : forall c x y c1 x2 l y2 l' c2, f x c = Ok (y, c1) -> last_chain f g c1 (x2 :: l) (y2 :: l') c2 -> last_chain f g c (x :: x2 :: l) (y :: y2 :: l') c2.
Lemma block_chain {A B} (W : tail_kind -> A -> M B) tk b : forall n i c b' c', n = i + length b ->
  mapiM (fun j s => W (pos_kind tk n j) s) i b c = Ok (b', c') -> last_chain (W NotTarget) (W tk) c b b' c'.
Proof.
  induction b as [|s b IH]; intros n i c b' c' Hn H.
  - inversion H; subst. constructor.
  - cbn [mapiM] in H. apply bind_Ok in H. destruct H as (y & c1 & H1 & H). apply bind_Ok in H. destruct H as (ys & c2 & H2 & H).
    inversion H; subst. unfold pos_kind in H1. destruct b as [|s2 b].
    + simpl length in H1. replace (i + 1 - 1) with i in H1 by lia. rewrite Nat.eqb_refl in H1. inversion H2; subst. constructor. exact H1.
    + destruct (Nat.eqb_spec i (i + length (s :: s2 :: b) - 1)) as [He|_]; [simpl in He; lia|].
      apply IH in H2; [|simpl; lia]. inversion H2; subst; econstructor; eauto.
Qed.
Lemma block_chain0 {A B} (W : tail_kind -> A -> M B) tk b c b' c' :
  mapiM (fun j s => W (pos_kind tk (length b) j) s) 0 b c = Ok (b', c') -> last_chain (W NotTarget) (W tk) c b b' c'.
Proof. apply block_chain. reflexivity. Qed.
Lemma opt_Ok {A B} (f : A -> M B) o c o' c' : optM f o c = Ok (o', c') ->
  match o, o' with None, None => c' = c | Some x, Some y => f x c = Ok (y, c') | _, _ => False end.
Proof.
  destruct o as [x|]; cbn [optM]; intros H; [|inversion H; reflexivity]. apply bind_Ok in H. destruct H as (y & c1 & H1 & H).
  inversion H; subst. exact H1.
Qed.

Lemma foreign_idem l : foreign (foreign l) = foreign l.
Proof. unfold foreign. induction l as [|a l IH]; [reflexivity|]. cbn [filter]. destruct (negb _) eqn:E; [|exact IH]. cbn [filter]. rewrite E, IH. reflexivity. Qed.

(** unfold one step of the walker, keeping the names of the nine functions *)
Ltac wcbn E H :=
  cbn [walk_expr walk_stmt walk_item walk_impl_item walk_trait_item walk_arm walk_field walk_mac walk_evaluable] in H;
  try fold (walk_expr E) in H; try fold (walk_stmt E) in H; try fold (walk_item E) in H; try fold (walk_impl_item E) in H;
  try fold (walk_trait_item E) in H; try fold (walk_arm E) in H; try fold (walk_field E) in H; try fold (walk_mac E) in H;
  try fold (walk_evaluable E) in H.

Section Facts.
  Variable E : env.
  Lemma handle_Ok a c cnt k s c' cnt' : handle E a c cnt = Ok ((k, s, c'), cnt') ->
    cnt' = cnt /\ k = foreign a /\ handle_inert_attrs (ev_attr E) a c = Ok (k, s, c').
  Proof.
    unfold handle, lift. destruct (handle_inert_attrs _ _ _) as [[[k0 s0] c0]|e|m] eqn:Eh; try discriminate.
    intros H. inversion H; subst. split; [reflexivity|]. split; [|reflexivity].
    unfold handle_inert_attrs in Eh. apply bindR_Ok in Eh. destruct Eh as ([i k2] & H1 & H2). inversion H2; subst.
    apply extract_ok in H1. destruct H1 as (es & _ & _ & -> & _). reflexivity.
  Qed.
  Lemma updated_none c : updated_by_inert_attr c inert0 = c.
  Proof. destruct c. reflexivity. Qed.
  (** after its attributes were handled a node is handled again without effect *)
  Lemma handle_again a c k s c' : handle_inert_attrs (ev_attr E) a c = Ok (k, s, c') ->
    handle_inert_attrs (ev_attr E) k c' = Ok (k, is_skipped c', c') /\ s = is_skipped c'.
  Proof.
    unfold handle_inert_attrs. intros H. apply bindR_Ok in H. destruct H as ([i k2] & H1 & H2). cbn [fst snd] in H2. inversion H2; subst.
    pose proof (extract_foreign _ _ _ _ H1) as H3. rewrite H3. cbn [bindR fst snd in_skip in_skip_all inert0 orb]. rewrite updated_none.
    split; [reflexivity|]. unfold is_skipped, updated_by_inert_attr, get_skip_status. cbn [cx_skip].
    destruct (in_skip_all i), (in_skip i); reflexivity.
  Qed.
  (** what a hook on [o] was rendered to *)
  Definition rendered (h : hook) (o r : expr) : Prop :=
    exists ts, render_toks (ev_str E) (h_ctx h) (h_kind h) (h_count h) (h_source h) (etoks o) (h_span h) = Ok ts /\ ev_parse E ts = Some r.
  Lemma hook_Ok apply e src k q c cnt e' x cnt' : hook_expr E apply e src k q c cnt = Ok ((e', x), cnt') ->
    cnt' = (if apply then count_up k cnt else cnt) /\
    if apply && is_hook_target c k
    then exists r, e' = EHook (mk_hook k (get_count k cnt') q src c None) e r /\ x = m_exc (fval (cx_method c)) /\
                   rendered (mk_hook k (get_count k cnt') q src c None) e r
    else e' = e /\ x = false.
  Proof.
    unfold hook_expr. destruct apply; cbn [negb andb]; [|intros H; inversion H; subst; auto].
    destruct (is_hook_target c k); cbn [negb]; [|intros H; inversion H; subst; auto].
    unfold render_expr. destruct (render_toks _ _ _ _ _ _ _) as [ts|er|m] eqn:Er; cbn [bindR]; try discriminate.
    destruct (ev_parse E ts) as [r|] eqn:Ep; try discriminate. intros H. inversion H; subst. split; [reflexivity|]. exists r.
    split; [reflexivity|]. split; [reflexivity|]. exists ts. auto.
  Qed.

  Definition ret_eligible (c : ctx) (e : expr) : bool :=
    let '(t, nt) := target_call_check c e in t || return_type_is_result c && negb nt.
  Definition tail_eligible (c : ctx) (fn : bool) (e : expr) : bool :=
    let '(t, nt) := target_call_check c e in t || return_type_is_result c && fn && negb nt.

  Lemma tail_Ok W e c tk cnt e' cnt' : handle_tail_with E W e c tk cnt = Ok (e', cnt') ->
    match get_attrs e with
    | None => e' = e /\ cnt' = cnt
    | Some a => exists s c1 e1 cnt1, handle_inert_attrs (ev_attr E) a c = Ok (foreign a, s, c1) /\ W (Some (foreign a)) c1 cnt = Ok (e1, cnt1) /\
        let counted := is_target tk && tail_eligible c1 (is_fn_tail tk) e1 && negb s in
        cnt' = (if counted then count_up TailExpr cnt1 else cnt1) /\
        if counted && is_hook_target c1 TailExpr
        then exists r, let h := mk_hook TailExpr (get_count TailExpr cnt') (ts_span (etoks e1)) (etoks (set_attrs (foreign a) e)) c1 None in
                       e' = EHook h e1 r /\ rendered h e1 r
        else e' = e1
    end.
  Proof.
    unfold handle_tail_with. destruct (get_attrs e) as [a|]; [|intros H; inversion H; auto].
    intros H. apply bind_Ok in H. destruct H as ([[a' s] c1] & cnt0 & H1 & H). apply handle_Ok in H1. destruct H1 as (-> & -> & H1).
    apply bind_Ok in H. destruct H as (e1 & cnt1 & H2 & H). exists s, c1, e1, cnt1. split; [exact H1|]. split; [exact H2|].
    unfold tail_eligible. destruct (is_target tk); cbn [negb andb] in *; [|inversion H; auto].
    destruct (target_call_check c1 e1) as [t nt]. destruct (t || return_type_is_result c1 && is_fn_tail tk && negb nt); cbn [andb]; [|inversion H; auto].
    apply bind_Ok in H. destruct H as ([e2 x] & cnt2 & H3 & H). inversion H; subst. apply hook_Ok in H3. destruct H3 as [-> H3]. split; [reflexivity|].
    destruct (negb s && is_hook_target c1 TailExpr); [|tauto]. destruct H3 as (r & -> & _ & Hr). eauto.
  Qed.
  Lemma try_Ok ov c a e0 sp cnt e' cnt' : walk_expr E ov c (ETry a e0 sp) cnt = Ok (e', cnt') ->
    exists s c1 e1 cnt1, let a' := foreign (attrs_now ov a) in
      handle_inert_attrs (ev_attr E) (attrs_now ov a) c = Ok (a', s, c1) /\ walk_expr E None c1 e0 cnt = Ok (e1, cnt1) /\
      cnt' = (if negb s then count_up Question cnt1 else cnt1) /\
      if negb s && is_hook_target c1 Question
      then exists r, let h := fun d => mk_hook Question (get_count Question cnt') sp (etoks (ETry a' e0 sp)) c1 d in
                     e' = (if m_exc (fval (cx_method c1)) then EHook (h (Some (a', sp))) e1 r else ETry a' (EHook (h None) e1 r) sp) /\
                     forall d, rendered (h d) e1 r
      else e' = ETry a' e1 sp.
  Proof.
    cbn [walk_expr]. intros H. apply bind_Ok in H. destruct H as ([[a' s] c1] & cnt0 & H1 & H). apply handle_Ok in H1. destruct H1 as (-> & -> & H1).
    apply bind_Ok in H. destruct H as (e1 & cnt1 & H2 & H). apply bind_Ok in H. destruct H as ([e2 x] & cnt2 & H3 & H). inversion H; subst.
    exists s, c1, e1, cnt1. cbv zeta. split; [exact H1|]. split; [exact H2|]. apply hook_Ok in H3. destruct H3 as [-> H3]. split; [reflexivity|].
    destruct (negb s && is_hook_target c1 Question); [|destruct H3 as [-> ->]; reflexivity]. destruct H3 as (r & -> & -> & Hr). exists r. cbv zeta.
    split; [|intros d; exact Hr]. destruct (m_exc (fval (cx_method c1))); reflexivity.
  Qed.
  Lemma return_Ok ov c a sp e0 cnt e' cnt' : walk_expr E ov c (EReturn a sp (Some e0)) cnt = Ok (e', cnt') ->
    exists s c1 e1 cnt1, let a' := foreign (attrs_now ov a) in
      handle_inert_attrs (ev_attr E) (attrs_now ov a) c = Ok (a', s, c1) /\ walk_expr E None c1 e0 cnt = Ok (e1, cnt1) /\
      let counted := ret_eligible c1 e1 && negb s in
      cnt' = (if counted then count_up Return cnt1 else cnt1) /\
      if counted && is_hook_target c1 Return
      then exists r, let h := mk_hook Return (get_count Return cnt') sp (etoks (EReturn a' sp (Some e0))) c1 None in
                     e' = EReturn a' sp (Some (EHook h e1 r)) /\ rendered h e1 r
      else e' = EReturn a' sp (Some e1).
  Proof.
    cbn [walk_expr]. intros H. apply bind_Ok in H. destruct H as ([[a' s] c1] & cnt0 & H1 & H). apply handle_Ok in H1. destruct H1 as (-> & -> & H1).
    apply bind_Ok in H. destruct H as (e1 & cnt1 & H2 & H). exists s, c1, e1, cnt1. cbv zeta. split; [exact H1|]. split; [exact H2|].
    unfold ret_eligible. destruct (target_call_check c1 e1) as [t nt]. destruct (t || return_type_is_result c1 && negb nt); cbn [andb]; [|inversion H; auto].
    apply bind_Ok in H. destruct H as ([e2 x] & cnt2 & H3 & H). inversion H; subst. apply hook_Ok in H3. destruct H3 as [-> H3]. split; [reflexivity|].
    destruct (negb s && is_hook_target c1 Return); [|destruct H3 as [-> _]; reflexivity]. destruct H3 as (r & -> & _ & Hr). eauto.
  Qed.
  (** nothing but the attributes of the expression itself depends on [ov] *)
  Lemma walk_ov a' c e : walk_expr E (Some a') c e = walk_expr E None c (set_attrs a' e).
  Proof. destruct e; reflexivity. Qed.

  (** the context inside a closure *)
  Definition closure_ctx (a : list attr) (hd : list tt) (out : ret_ty) (c : ctx) : ctx :=
    update_fn_info c (closure_info_new out (outer_toks a ++ hd ++ [TGroup Brace [] call_site]) (cx_fn c)).
  Lemma closure_Ok ov c a hd out body cnt e' cnt' : walk_expr E ov c (EClosure a hd out body) cnt = Ok (e', cnt') ->
    exists s c1 body', let a' := foreign (attrs_now ov a) in let c2 := closure_ctx a' hd out c1 in
      handle_inert_attrs (ev_attr E) (attrs_now ov a) c = Ok (a', s, c1) /\ e' = EClosure a' hd out body' /\
      ((exists ba lbl bsp b s3 c3 b', body = EBlock ba lbl bsp b /\ body' = EBlock (foreign ba) lbl bsp b' /\
          handle_inert_attrs (ev_attr E) ba c2 = Ok (foreign ba, s3, c3) /\
          mapiM (fun i s => walk_stmt E (pos_kind FnBlockTail (length b) i) (for_sub_scope c3) s) 0 b cnt = Ok (b', cnt')) \/
       ((forall ba lbl bsp b, body <> EBlock ba lbl bsp b) /\
        handle_tail_with E (fun ov' c' => walk_expr E ov' c' body) body c2 FnBlockTail cnt = Ok (body', cnt'))).
  Proof.
    intros H. wcbn E H. apply bind_Ok in H. destruct H as ([[a' s] c1] & cnt0 & H1 & H). apply handle_Ok in H1. destruct H1 as (-> & -> & H1).
    apply bind_Ok in H. destruct H as (body' & cnt1 & H2 & H). inversion H; subst. exists s, c1, body'. cbv zeta. split; [exact H1|]. split; [reflexivity|].
    assert (Hc : etoks (EClosure (foreign (attrs_now ov a)) hd out (EBlock [] [] call_site [])) =
                 outer_toks (foreign (attrs_now ov a)) ++ hd ++ [TGroup Brace [] call_site]) by reflexivity.
    rewrite Hc in H2. fold (closure_ctx (foreign (attrs_now ov a)) hd out c1) in H2.
    destruct body; try (right; split; [discriminate|exact H2]).
    left. apply bind_Ok in H2. destruct H2 as ([[ba' s3] c3] & cnt2 & H3 & H2). apply handle_Ok in H3. destruct H3 as (-> & -> & H3).
    apply bind_Ok in H2. destruct H2 as (b' & cnt3 & H4 & H2). inversion H2; subst. eauto 12.
  Qed.
  Lemma arm_Ok c a pat ik guard arrow body comma cnt r' cnt' : walk_arm E c (Arm a pat ik guard arrow body comma) cnt = Ok (r', cnt') ->
    exists guard' body' cnt1, optM (walk_expr E None c) guard cnt = Ok (guard', cnt1) /\ r' = Arm a pat ik guard' arrow body' comma /\
      (((exists ba lbl bsp b, body = EBlock ba lbl bsp b) /\ walk_expr E None c body cnt1 = Ok (body', cnt')) \/
       ((forall ba lbl bsp b, body <> EBlock ba lbl bsp b) /\
        handle_tail_with E (fun ov' c' => walk_expr E ov' c' body) body c BlockTail cnt1 = Ok (body', cnt'))).
  Proof.
    intros H. wcbn E H. apply bind_Ok in H. destruct H as (guard' & cnt1 & H1 & H). apply bind_Ok in H. destruct H as (body' & cnt2 & H2 & H).
    inversion H; subst. exists guard', body', cnt1. split; [exact H1|]. split; [reflexivity|].
    destruct body; try (right; split; [discriminate|exact H2]). left. split; [eauto 6|exact H2].
  Qed.
  Lemma mac_Ok c p d sp ts view cnt m' cnt' : walk_mac E c (Mac p d sp ts view) cnt = Ok (m', cnt') ->
    (m' = Mac p d sp ts view /\ cnt' = cnt /\ (hook_in_macros c = false \/ view = None)) \/
    (hook_in_macros c = true /\ exists l l', view = Some l /\ mapM (walk_evaluable E c) l cnt = Ok (l', cnt') /\ m' = Mac p d sp (flat_map vtoks l') (Some l')).
  Proof.
    intros H. wcbn E H. destruct (hook_in_macros c); cbn [negb] in H; [|left; inversion H; auto].
    destruct view as [l|]; [|left; inversion H; auto]. right. split; [reflexivity|]. apply bind_Ok in H. destruct H as (l' & cnt1 & H1 & H).
    inversion H; subst. eauto.
  Qed.
  Lemma stmt_expr_Ok tk c e semi cnt s' cnt' : walk_stmt E tk c (SExpr e semi) cnt = Ok (s', cnt') ->
    exists e', s' = SExpr e' semi /\
      if is_target tk && match semi with None => true | _ => false end
      then handle_tail_with E (fun ov c' => walk_expr E ov c' e) e c tk cnt = Ok (e', cnt')
      else walk_expr E None c e cnt = Ok (e', cnt').
  Proof.
    intros H. wcbn E H. destruct semi; [|destruct (is_target tk)]; rewrite ?andb_false_r; cbn [andb];
      apply bind_Ok in H; destruct H as (e' & cnt1 & H1 & H); inversion H; subst; eauto.
  Qed.
End Facts.

Ltac winv :=
  repeat match goal with
  | H : bind _ _ _ = Ok _ |- _ => apply bind_Ok in H; destruct H as (? & ? & ? & H)
  | H : ret _ _ = Ok _ |- _ => unfold ret in H; inversion H; subst; clear H
  | x : _ * _ |- _ => destruct x
  | H : handle _ _ _ _ = Ok _ |- _ => apply handle_Ok in H; destruct H as (-> & -> & H)
  | H : Ok _ = Ok _ |- _ => inversion H; subst; clear H
  end.

