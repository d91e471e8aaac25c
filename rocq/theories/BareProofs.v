(** The walker only adds hooks and removes hooq attributes.  *)
From Coq Require Import String Ascii Bool Arith Lia List.
From Verif Require Import Base Tokens Method Paths Context Flavor Attrs Syntax SyntaxInd Render Walker AttrSpec SiteSpec ProgSpec WalkFacts.
Import ListNotations.
Open Scope string_scope.
Open Scope list_scope.
Open Scope monad_scope.

Section Bare.
  Variable E : env.
  Definition ov_ok (ov : option (list attr)) (e : expr) : Prop :=
    match ov, get_attrs e with Some a', Some a => foreign a' = foreign a | _, _ => True end.
  Definition B_expr (e : expr) : Prop := forall ov c cnt e' cnt', walk_expr E ov c e cnt = Ok (e', cnt') -> ov_ok ov e -> bare e' = bare e.
  Definition B_stmt (s : stmt) : Prop := forall tk c cnt s' cnt', walk_stmt E tk c s cnt = Ok (s', cnt') -> stmt_bare s' = stmt_bare s.
  Definition B_item (i : item) : Prop := forall c cnt i' cnt', walk_item E c i cnt = Ok (i', cnt') -> item_bare i' = item_bare i.
  Definition B_impl (i : impl_item) : Prop := forall c cnt i' cnt', walk_impl_item E c i cnt = Ok (i', cnt') -> impl_bare i' = impl_bare i.
  Definition B_trait (i : trait_item) : Prop := forall c cnt i' cnt', walk_trait_item E c i cnt = Ok (i', cnt') -> trait_bare i' = trait_bare i.
  Definition B_arm (r : arm) : Prop := forall c cnt r' cnt', walk_arm E c r cnt = Ok (r', cnt') -> arm_bare r' = arm_bare r.
  Definition B_field (f : fieldv) : Prop := forall c cnt f' cnt', walk_field E c f cnt = Ok (f', cnt') -> field_bare f' = field_bare f.
  Definition B_mac (m : mac) : Prop := forall c cnt m' cnt', walk_mac E c m cnt = Ok (m', cnt') -> mac_bare m' = mac_bare m.
  Definition B_ev (v : evaluable) : Prop := forall c cnt v' cnt', walk_evaluable E c v cnt = Ok (v', cnt') -> ev_bare v' = ev_bare v.

  Lemma chain_map {A B} (f : A -> M A) (g : A -> B) l c l' c' :
    Forall (fun x => forall c y c', f x c = Ok (y, c') -> g y = g x) l -> chain f c l l' c' -> map g l' = map g l.
  Proof.
    intros HF H. induction H; [reflexivity|]. inversion HF; subst. cbn [map]. f_equal; [eapply H3, H|]. apply IHchain; assumption.
  Qed.
  Lemma last_chain_map {A B} (f f' : A -> M A) (g : A -> B) l c l' c' :
    Forall (fun x => forall c y c', f x c = Ok (y, c') \/ f' x c = Ok (y, c') -> g y = g x) l -> last_chain f f' c l l' c' -> map g l' = map g l.
  Proof.
    intros HF H. induction H as [|c x y c1 H|c x y c1 x2 l y2 l' c2 H HC IH]; [reflexivity| |]; inversion HF as [|? ? H3 H4]; subst; cbn [map].
    - f_equal. eapply H3. right. exact H.
    - f_equal; [eapply H3; left; exact H|]. apply IH. exact H4.
  Qed.
  Lemma es_bare ov c es cnt es' cnt' : Forall B_expr es -> ov = None -> mapM (walk_expr E ov c) es cnt = Ok (es', cnt') -> map bare es' = map bare es.
  Proof.
    intros HF -> H. apply mapM_chain in H. eapply chain_map; [|exact H]. eapply Forall_impl; [|exact HF]. intros x Hx c1 y c2 Hw. eapply Hx; [exact Hw|exact I].
  Qed.
  Lemma block_bare tk c b n cnt b' cnt' : Forall B_stmt b -> n = length b ->
    mapiM (fun j s => walk_stmt E (pos_kind tk n j) c s) 0 b cnt = Ok (b', cnt') -> map stmt_bare b' = map stmt_bare b.
  Proof.
    intros HF -> H. apply (block_chain0 (fun tk s => walk_stmt E tk c s)) in H. eapply last_chain_map; [|exact H].
    eapply Forall_impl; [|exact HF]. intros x Hx c1 y c2 [Hw|Hw]; eapply Hx; exact Hw.
  Qed.
  Lemma opt_bare c o cnt o' cnt' : optP B_expr o -> optM (walk_expr E None c) o cnt = Ok (o', cnt') -> option_map bare o' = option_map bare o.
  Proof.
    intros HP H. apply opt_Ok in H. destruct o as [x|], o' as [y|]; try contradiction; [|reflexivity]. cbn [option_map]. f_equal. eapply HP; [exact H|exact I].
  Qed.
  Lemma tail_bare e c tk cnt e' cnt' : B_expr e -> handle_tail_with E (fun ov c' => walk_expr E ov c' e) e c tk cnt = Ok (e', cnt') -> bare e' = bare e.
  Proof.
    intros He H. apply tail_Ok in H. destruct (get_attrs e) as [a|] eqn:Ea; [|destruct H as [-> _]; reflexivity].
    destruct H as (s & c1 & e1 & cnt1 & _ & Hw & _ & H). cbv zeta in H.
    assert (Hb : bare e1 = bare e).
    { eapply He; [exact Hw|]. unfold ov_ok. rewrite Ea. apply foreign_idem. }
    rewrite <- Hb. destruct (_ && is_hook_target c1 TailExpr); [destruct H as (r & -> & _)|rewrite H]; reflexivity.
  Qed.

  Lemma now_foreign ov e a : ov_ok ov e -> get_attrs e = Some a -> foreign (foreign (attrs_now ov a)) = foreign a.
  Proof. unfold ov_ok. intros H Ha. rewrite Ha in H. rewrite foreign_idem. destruct ov; [exact H|reflexivity]. Qed.

  Ltac leaf :=
    repeat match goal with
    | |- foreign (foreign (attrs_now ?ov ?a)) = foreign ?a => eapply now_foreign; [eassumption|reflexivity]
    | |- foreign (attrs_now ?ov ?a) = foreign ?a => rewrite <- foreign_idem; eapply now_foreign; [eassumption|reflexivity]
    | |- foreign (foreign ?a) = foreign ?a => apply foreign_idem
    | H : mapM (walk_expr _ None _) ?es _ = Ok (?es', _) |- map bare ?es' = map bare ?es => eapply es_bare; [eassumption|reflexivity|exact H]
    | H : mapiM _ 0 ?b _ = Ok (?b', _) |- map stmt_bare ?b' = map stmt_bare ?b => eapply block_bare; [|reflexivity|exact H]; assumption
    | H : optM _ ?o _ = Ok (?o', _) |- option_map bare ?o' = option_map bare ?o => eapply opt_bare; [|exact H]; assumption
    | H : walk_expr _ None _ ?e _ = Ok (?e', _), IH : B_expr ?e |- bare ?e' = bare ?e => eapply IH; [exact H|exact I]
    | H : walk_mac _ _ ?m _ = Ok (?m', _), IH : B_mac ?m |- mac_bare ?m' = mac_bare ?m => eapply IH; exact H
    | H : walk_item _ _ ?m _ = Ok (?m', _), IH : B_item ?m |- item_bare ?m' = item_bare ?m => eapply IH; exact H
    | H : walk_stmt _ _ _ ?m _ = Ok (?m', _), IH : B_stmt ?m |- stmt_bare ?m' = stmt_bare ?m => eapply IH; exact H
    | H : mapM _ ?l _ = Ok (?l', _) |- map _ ?l' = map _ ?l =>
        apply mapM_chain in H; eapply chain_map; [|exact H]; eapply Forall_impl; [|eassumption]; let Hx := fresh in let Hy := fresh in intros ? Hx ? ? ? Hy; eapply Hx; exact Hy
    end.

  Lemma bare_all : (forall x, B_expr x) /\ (forall x, B_stmt x) /\ (forall x, B_item x) /\ (forall x, B_impl x) /\ (forall x, B_trait x) /\
    (forall x, B_arm x) /\ (forall x, B_field x) /\ (forall x, B_mac x) /\ (forall x, B_ev x).
  Proof.
    apply syntax_ind2; intros.
    all: match goal with
         | |- B_expr (ETry _ _ _) => idtac
         | |- B_expr (EReturn _ _ _) => idtac
         | |- B_expr (EClosure _ _ _ _) => idtac
         | |- B_stmt (SExpr _ _) => idtac
         | |- B_arm _ => idtac
         | |- B_mac _ => idtac
         | |- B_item (IMacro _ _ _ _) => idtac
         | |- B_expr _ => intros ov ? ? ? ? Hwalk Hov; wcbn E Hwalk; winv; cbn [bare stmt_bare item_bare impl_bare trait_bare arm_bare field_bare mac_bare ev_bare]; f_equal; leaf
         | |- B_stmt _ => intros ? ? ? ? ? Hwalk; wcbn E Hwalk; winv; cbn [bare stmt_bare item_bare impl_bare trait_bare arm_bare field_bare mac_bare ev_bare]; f_equal; leaf
         | |- B_item _ => intros ? ? ? ? Hwalk; wcbn E Hwalk; winv; cbn [bare stmt_bare item_bare impl_bare trait_bare arm_bare field_bare mac_bare ev_bare]; f_equal; leaf
         | |- B_impl _ => intros ? ? ? ? Hwalk; wcbn E Hwalk; winv; cbn [bare stmt_bare item_bare impl_bare trait_bare arm_bare field_bare mac_bare ev_bare]; f_equal; leaf
         | |- B_trait _ => intros ? ? ? ? Hwalk; wcbn E Hwalk; winv; cbn [bare stmt_bare item_bare impl_bare trait_bare arm_bare field_bare mac_bare ev_bare]; f_equal; leaf
         | |- B_field _ => intros ? ? ? ? Hwalk; wcbn E Hwalk; winv; cbn [bare stmt_bare item_bare impl_bare trait_bare arm_bare field_bare mac_bare ev_bare]; f_equal; leaf
         | |- B_ev _ => intros ? ? ? ? Hwalk; wcbn E Hwalk; winv; cbn [bare stmt_bare item_bare impl_bare trait_bare arm_bare field_bare mac_bare ev_bare]; f_equal; leaf
         end.
    all: try reflexivity.
    - (* closure *)
      intros ov c cnt e' cnt' Hw Hov. apply closure_Ok in Hw. destruct Hw as (s & c1 & body' & H1 & -> & [Hb|Hb]); cbn [bare].
      + destruct Hb as (ba & lbl & bsp & b & s3 & c3 & b' & -> & -> & H3 & H4). cbn [stmts_of] in H0. cbn [bare]. f_equal; [leaf|]. f_equal; leaf.
      + destruct Hb as (_ & Hb). f_equal; [leaf|]. eapply tail_bare; eassumption.
    - (* return *)
      intros ov c cnt e' cnt' Hw Hov. destruct e as [e0|].
      + cbn [optP] in H. apply return_Ok in Hw. destruct Hw as (s & c1 & e1 & cnt1 & H1 & H2 & _ & Hw). cbv zeta in Hw.
        assert (Hb : bare e1 = bare e0) by leaf.
        destruct (_ && is_hook_target c1 Return); [destruct Hw as (r & -> & _)|rewrite Hw]; cbn [bare option_map h_consumed]; rewrite Hb; f_equal; leaf.
      + wcbn E Hw. winv. cbn [bare option_map]. f_equal; leaf.
    - (* try *)
      intros ov c cnt e' cnt' Hw Hov. apply try_Ok in Hw. destruct Hw as (s & c1 & e1 & cnt1 & H1 & H2 & _ & Hw). cbv zeta in Hw.
      assert (Hb : bare e1 = bare e) by leaf.
      destruct (_ && is_hook_target c1 Question); [destruct Hw as (r & -> & _); destruct (m_exc _)|rewrite Hw]; cbn [bare option_map h_consumed]; rewrite Hb; f_equal; leaf.
    - (* expression statement *)
      intros tk c cnt s' cnt' Hw. apply stmt_expr_Ok in Hw. destruct Hw as (e' & -> & Hw). cbn [stmt_bare]. f_equal.
      destruct (is_target tk && _); [eapply tail_bare; eassumption|leaf].
    - (* macro item *)
      intros c cnt i' cnt' Hw. wcbn E Hw. destruct name as [n|]; winv; [reflexivity|]. cbn [item_bare]. f_equal; leaf.
    - (* arm *)
      intros c cnt r' cnt' Hw. apply arm_Ok in Hw. destruct Hw as (g' & b' & cnt1 & H1 & -> & Hb). cbn [arm_bare]. f_equal; [leaf|].
      destruct Hb as [[_ Hb]|[_ Hb]]; [leaf|eapply tail_bare; eassumption].
    - (* macro call *)
      intros c cnt m' cnt' Hw. apply mac_Ok in Hw. destruct Hw as [(-> & _)|(_ & l & l' & -> & Hw & ->)]; [reflexivity|]. cbn [optP] in H.
      assert (Hl : map ev_bare l' = map ev_bare l) by leaf. cbn [mac_bare]. rewrite Hl. reflexivity.
  Qed.
End Bare.
