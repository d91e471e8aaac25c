(** Where an expression begins does not change when hooks are appended to its operands.  *)
From Coq Require Import String Ascii Bool Arith Lia List.
From Verif Require Import Base Tokens Method Paths Context Flavor Attrs Syntax SyntaxInd Render RenderProofs Walker AttrSpec AttrProofs SiteSpec ProgSpec WalkFacts BareProofs SiteProofs AccountProofs PlaceSpec.
Import ListNotations.
Open Scope string_scope.
Open Scope list_scope.
Open Scope monad_scope.

Lemma start_app a b : start (a ++ b) = match start a with Some s => Some s | None => start b end.
Proof. destruct a; reflexivity. Qed.
Lemma start_none ts : start ts = None -> ts = [].
Proof. destruct ts; [reflexivity|discriminate]. Qed.
Lemma start_span a b : start a = start b -> ts_span a = ts_span b.
Proof. destruct a, b; cbn; intros H; inversion H; auto. Qed.

Section Place.
  Variable E : env.
  Hypothesis HP : prints_start E.
  Definition made_ok (e : expr) : Prop := match e with EHook h o r => rendered E h o r | _ => True end.

  Lemma made_start h o r : rendered E h o r -> (exists dot ts b, fval (cx_method (h_ctx h)) = Insert dot ts b) -> start (etoks o) <> None -> start (etoks r) = start (etoks o).
  Proof.
    intros (ts & Hr & Hp) (dot & tm & b & Hm) Hne. rewrite (HP _ _ Hp). unfold render_toks in Hr. apply bindR_Ok in Hr. destruct Hr as (x & _ & Hr). rewrite Hm in Hr.
    inversion Hr; subst. rewrite start_app. destruct (start (etoks o)); [reflexivity|congruence].
  Qed.

  Definition Z (e : expr) : Prop := Forall keeps_start (edge e) -> Forall made_ok (edge e) -> start (etoks (last (edge e) e)) <> None ->
    start (etoks e) = start (etoks (bare e)) /\ start (etoks e) <> None.
  Lemma last_cons {A} (x d d' : A) l : last (x :: l) d = last (x :: l) d'.
  Proof. revert x. induction l as [|y l IH]; intros x; [reflexivity|]. change (last (y :: l) d = last (y :: l) d'). apply IH. Qed.
  Lemma edge_cons e : exists l, edge e = e :: l.
  Proof. destruct e; cbn [edge]; eauto. Qed.
  Lemma last_edge x e : last (x :: edge e) x = last (edge e) e.
  Proof. destruct (edge_cons e) as [l ->]. change (last (e :: l) x = last (e :: l) e). apply last_cons. Qed.
  Lemma start_some a b : start a <> None -> start (a ++ b) = start a /\ start (a ++ b) <> None.
  Proof. intros H. rewrite start_app. destruct (start a); [auto|congruence]. Qed.

  Lemma lead a l l' x x' : start l = start l' /\ start l <> None -> start (outer_toks a ++ l ++ x) = start (outer_toks a ++ l' ++ x') /\ start (outer_toks a ++ l ++ x) <> None.
  Proof. intros [He Hn]. rewrite !start_app, <- He. destruct (start (outer_toks a)); [split; [reflexivity|discriminate]|]. destruct (start l); [split; [reflexivity|discriminate]|congruence]. Qed.
  Lemma lead0 a l l' : start l = start l' /\ start l <> None -> start (outer_toks a ++ l) = start (outer_toks a ++ l') /\ start (outer_toks a ++ l) <> None.
  Proof. intros H. generalize (lead a l l' [] [] H). rewrite !app_nil_r. auto. Qed.
  Lemma keyword a t kw x x' : start (outer_toks a ++ (t :: kw) ++ x) = start (outer_toks a ++ (t :: kw) ++ x') /\ start (outer_toks a ++ (t :: kw) ++ x) <> None.
  Proof. apply lead. split; [reflexivity|discriminate]. Qed.
  Lemma same_start a b : start a = start b -> start a <> None -> start a = start b /\ start a <> None.
  Proof. auto. Qed.

  Lemma start_kept : forall e, Z e.
  Proof.
    fix IH 1. intros e HK HM HL.
    assert (HK0 : keeps_start e) by (destruct (edge_cons e) as [l Hl]; rewrite Hl in HK; inversion HK; assumption).
    destruct e; cbn [edge] in *; cbn [keeps_start attrs_of get_attrs] in HK0; cbn [bare etoks];
      try match goal with |- context [opt_toks _ (option_map _ ?o)] => destruct o; cbn [option_map opt_toks app] in *; cbn [edge] in * end.
    all: try rewrite HK0.
    all: repeat match goal with
         | |- context [outer_toks ?a ++ ?k ++ _] => is_var k; destruct k; cbn [app after] in *
         | |- context [outer_toks ?a ++ ?k] => is_var k; destruct k; cbn [app after] in *
         end.
    all: try (inversion HK as [|? ? _ HK1]; inversion HM as [|? ? HM0 HM1]; subst; rewrite last_edge in HL;
              match goal with |- context [etoks ?l] => specialize (IH l HK1 HM1 HL) end; solve [apply lead; exact IH | apply lead0; exact IH]).
    all: try (split; [rewrite !start_app; reflexivity | rewrite !start_app; destruct (start (outer_toks a)); discriminate]).
    all: try (split; [reflexivity | exact HL]).
    - destruct m as [p d sp ts view]. destruct view; cbn [mtoks mac_bare]; rewrite !start_app; destruct (start (outer_toks a)), (start (path_toks p)); cbn; split; first [reflexivity|discriminate].
    - destruct t as [l|]; cbn [opt_toks option_map app] in *; [|split; [reflexivity|exact HL]].
      inversion HK as [|? ? _ HK1]; inversion HM as [|? ? HM0 HM1]; subst; rewrite last_edge in HL. apply lead0. exact (IH l HK1 HM1 HL).
    - rewrite !start_app. destruct (start (outer_toks a)), (start (path_toks p)); cbn; split; first [reflexivity|discriminate].
    - rewrite !start_app. destruct (start (outer_toks a)), (start (path_toks p)); cbn; split; first [reflexivity|discriminate].
    - inversion HK as [|? ? _ HK1]; inversion HM as [|? ? HM0 HM1]; subst; rewrite last_edge in HL. destruct (IH e1 HK1 HM1 HL) as [Hs Hn].
      destruct HK0 as [Hm Hc]. assert (H2 := made_start _ _ _ HM0 Hm Hn). rewrite H2. split; [|exact Hn]. rewrite Hs.
      destruct (h_consumed h) as [[a sp]|]; [subst a; cbn [etoks foreign filter]; unfold foreign; cbn|reflexivity].
      rewrite start_app, <- Hs. destruct (start (etoks e1)); [reflexivity|congruence].
  Qed.

  Lemma edge_written : forall e, written (subs e) -> Forall made_ok (edge e).
  Proof.
    fix IH 1. intros e Hw.
    destruct e; scbn Hw; wsplit; cbn [edge]; (constructor; [solve [exact I | discriminate]|]); try solve [constructor | apply IH; assumption].
    all: try match goal with |- context [match ?o with Some _ => _ | None => _ end] => destruct o; cbn [opt_list] in * end.
    all: try match goal with |- context [match ?o with Some _ => _ | None => _ end] => destruct o; cbn [opt_list] in * end.
    all: try solve [constructor | apply IH; assumption].
    all: try match goal with |- context [after ?k] => destruct k; cbn [after] end; try solve [constructor | apply IH; assumption].
    all: try discriminate.
  Qed.
  Lemma after_all (P : expr -> Prop) kw l : Forall P l -> Forall P (after kw l).
  Proof. destruct kw; cbn; auto. Qed.
  Lemma edge_made : forall e ov c cnt e' cnt', walk_expr E ov c e cnt = Ok (e', cnt') -> written (subs e) -> Forall made_ok (edge e').
  Proof.
    fix IH 1. intros e ov c cnt e' cnt' H Hw.
    destruct e.
    all: match type of H with
         | walk_expr _ _ _ (ETry _ _ _) _ = _ => idtac
         | walk_expr _ _ _ (EReturn _ _ _) _ = _ => idtac
         | walk_expr _ _ _ (EClosure _ _ _ _) _ = _ => idtac
         | _ => scbn Hw; wsplit; wcbn E H; winv; cbn [edge]; (constructor; [first [exact I|discriminate]|]);
                try solve [constructor | apply edge_written; assumption | eapply IH; eassumption | apply after_all; eapply IH; eassumption]
         end.
    - destruct e as [e|]; cbn [optM] in *; winv; [apply after_all; eapply IH; eassumption|constructor].
    - apply closure_Ok in H. destruct H as (s & c2 & body' & Hh & -> & Hbody). cbv zeta in *. cbn [edge]. constructor; [exact I|]. apply after_all. scbn Hw. wsplit.
      destruct Hbody as [(ba & lbl & bsp & b & s3 & c3 & b' & -> & -> & Hh3 & Hb3)|[Hnb Hbody]]; [constructor; [exact I|constructor]|].
      apply tail_Ok in Hbody. destruct (get_attrs e) as [a1|]; [|destruct Hbody as [-> _]; apply edge_written; assumption].
      destruct Hbody as (s1 & c1 & e1 & cnt1 & _ & Hwalk & _ & Hbody). cbv zeta in Hbody.
      assert (He : Forall made_ok (edge e1)) by (eapply IH; eassumption).
      destruct (_ && is_hook_target c1 TailExpr); [|subst; exact He]. destruct Hbody as (r & -> & Hr). cbn [edge]. constructor; [exact Hr|exact He].
    - destruct s as [e|]; cbn [optM opt_list] in *; winv; [eapply IH; eassumption|]. destruct t as [e|]; cbn [optM] in *; winv; [apply after_all; eapply IH; eassumption|constructor].
    - destruct e as [e|]; [|wcbn E H; winv; constructor; [exact I|constructor]].
      apply return_Ok in H. destruct H as (s & c1 & e1 & cnt1 & _ & _ & _ & H). cbv zeta in H. destruct (_ && is_hook_target c1 Return); [destruct H as (r & -> & _)|subst e'];
        (constructor; [exact I|constructor]).
    - apply try_Ok in H. destruct H as (s & c1 & e1 & cnt1 & _ & Hwalk & _ & H). cbv zeta in H. scbn Hw. wsplit.
      assert (He : Forall made_ok (edge e1)) by (eapply IH; eassumption).
      destruct (_ && is_hook_target c1 Question); [|subst e'; constructor; [exact I|exact He]].
      destruct H as (r & -> & Hr). destruct (m_exc (fval (cx_method c1))); cbn [edge]; repeat (constructor; [solve [exact I|apply Hr]|]); exact He.
    - destruct e as [e|]; cbn [optM] in *; winv; [apply after_all; eapply IH; eassumption|constructor].
  Qed.
  Lemma walk_start e ov c cnt e' cnt' : walk_expr E ov c e cnt = Ok (e', cnt') -> written (subs e) ->
    Forall keeps_start (edge e') -> start (etoks (last (edge e') e')) <> None -> start (etoks e') = start (etoks (bare e')).
  Proof. intros H Hw HK HL. apply start_kept; [exact HK|eapply edge_made; eassumption|exact HL]. Qed.
End Place.
