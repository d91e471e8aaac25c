(** The positions of a source program: what kind of expression each one is.  *)
From Coq Require Import String Ascii Bool Arith Lia List.
From Verif Require Import Base Tokens Method Paths Context Flavor Attrs Syntax SyntaxInd Render Walker AttrSpec AttrProofs SiteSpec ProgSpec WalkFacts BareProofs SiteProofs AccountProofs.
Import ListNotations.
Open Scope string_scope.
Open Scope list_scope.
Open Scope monad_scope.

(** in the source *)
Definition shaped (s : site) : Prop :=
  match s_kind s with
  | KTry => exists a fr, s_whole s = ETry a (s_target s) (s_span s) /\ s_frames s = FAttrs a :: fr
  | KReturn => exists a fr, s_whole s = EReturn a (s_span s) (Some (s_target s)) /\ s_frames s = FAttrs a :: fr
  | KTail _ => s_whole s = s_target s /\ exists a fr, get_attrs (s_target s) = Some a /\ s_frames s = FAttrs a :: fr
  end /\ s_hook s = None /\ written (subs (s_whole s)).
Definition shapes (l : list site) : Prop := Forall shaped l.
Lemma shapes_app a b : shapes a -> shapes b -> shapes (a ++ b).
Proof. intros. apply Forall_app. auto. Qed.
Lemma shapes_flat {A} (g : A -> list site) l : Forall (fun x => shapes (g x)) l -> shapes (flat_map g l).
Proof. induction 1; [constructor|]. cbn [flat_map]. apply shapes_app; assumption. Qed.
Lemma shapes_last {A} (g1 g2 : A -> list site) l : Forall (fun x => shapes (g1 x) /\ shapes (g2 x)) l -> shapes (last_map g1 g2 l).
Proof.
  induction 1 as [|x l [H1 H2] HF IH]; [constructor|]. destruct l as [|x2 l]; [exact H2|].
  change (last_map g1 g2 (x :: x2 :: l)) with (g1 x ++ last_map g1 g2 (x2 :: l)). apply shapes_app; assumption.
Qed.
Definition P_expr (s : expr) : Prop := forall fr, written (subs s) -> shapes (sites fr s).
Definition P_stmt (s : stmt) : Prop := forall t fr, written (stmt_subs s) -> shapes (stmt_sites t fr s).
Definition P_item (s : item) : Prop := forall fr, written (item_subs s) -> shapes (item_sites fr s).
Definition P_impl (s : impl_item) : Prop := forall fr, written (impl_subs s) -> shapes (impl_sites fr s).
Definition P_trait (s : trait_item) : Prop := forall fr, written (trait_subs s) -> shapes (trait_sites fr s).
Definition P_arm (s : arm) : Prop := forall fr, written (arm_subs s) -> shapes (arm_sites fr s).
Definition P_field (s : fieldv) : Prop := forall fr, written (field_subs s) -> shapes (field_sites fr s).
Definition P_mac (s : mac) : Prop := forall fr, written (mac_subs s) -> shapes (mac_sites fr s).
Definition P_ev (s : evaluable) : Prop := forall fr, written (ev_subs s) -> shapes (ev_sites fr s).

Lemma shapes_tail fn fr e : P_expr e -> written (subs e) -> shapes (at_tail (sites fr) fn fr e).
Proof.
  intros He Hw. unfold at_tail. destruct (written_on TailExpr e Hw) as (-> & -> & Hu). rewrite Hu. apply shapes_app; [apply He; assumption|].
  destruct (verbatim e) eqn:Ev; [constructor|]. constructor; [|constructor]. split; [|split; [reflexivity|exact Hw]]. cbn.
  split; [reflexivity|]. unfold attrs_of. destruct (get_attrs e) as [a|] eqn:Ea; [do 2 eexists; split; reflexivity|].
  destruct e; try discriminate. destruct (written_self _ Hw _ _ _ eq_refl).
Qed.
Ltac pleaf :=
  repeat match goal with
  | |- shapes (_ ++ _) => apply shapes_app
  | |- shapes [] => constructor
  | IH : P_expr ?e |- shapes (sites _ ?e) => apply IH; assumption
  | IH : P_mac ?e |- shapes (mac_sites _ ?e) => apply IH; assumption
  | IH : P_item ?e |- shapes (item_sites _ ?e) => apply IH; assumption
  | IH : P_stmt ?e |- shapes (stmt_sites _ _ ?e) => apply IH; assumption
  | |- shapes (opt_list _ ?o) => destruct o; cbn [opt_list optP] in *; [|constructor]
  | HW : Forall (fun _ => written _) ?b, HD : Forall ?P ?b |- shapes (last_map _ _ ?b) =>
      apply shapes_last; eapply (Forall_mp P); [|exact HD|exact HW]; cbv beta;
      let H1 := fresh in let H2 := fresh in intros ? H1 H2; split; solve [apply H1; exact H2]
  | HW : Forall (fun _ => written _) ?b, HD : Forall ?P ?b |- shapes (flat_map _ ?b) =>
      apply shapes_flat; eapply (Forall_mp P); [|exact HD|exact HW]; cbv beta;
      let H1 := fresh in let H2 := fresh in intros ? H1 H2; solve [apply H1; exact H2]
  end.
Lemma shapes_all : (forall x, P_expr x) /\ (forall x, P_stmt x) /\ (forall x, P_item x) /\ (forall x, P_impl x) /\ (forall x, P_trait x) /\
  (forall x, P_arm x) /\ (forall x, P_field x) /\ (forall x, P_mac x) /\ (forall x, P_ev x).
Proof.
  apply syntax_ind2; intros.
  all: match goal with
       | |- P_stmt _ => intros tt fr Hw
       | _ => intros fr Hw
       end; pose proof Hw as Hwhole; scbn Hw; wsplit; dcbn.
  all: try solve [pleaf].
  - destruct body; try (apply shapes_tail; assumption). cbn [stmts_of] in *. scbn H1. wsplit. pleaf.
  - destruct e as [e0|]; [|constructor]. cbn [optP opt_list] in *. destruct (written_on Return e0 H0) as (-> & -> & Hu). rewrite Hu. pleaf.
    constructor; [|constructor]. split; [cbn; eauto|split; [reflexivity|exact Hwhole]].
  - destruct (written_on Question e H0) as (-> & -> & Hu). rewrite Hu. pleaf. constructor; [|constructor]. split; [cbn; eauto|split; [reflexivity|exact Hwhole]].
  - discriminate.
  - destruct semi; [pleaf|]. destruct tt; [|pleaf]. apply shapes_tail; assumption.
  - destruct name; pleaf.
  - pleaf. destruct body; try pleaf; apply shapes_tail; assumption.
  - destruct view; [|constructor]. cbn [optP] in *. wsplit. pleaf.
Qed.
Lemma item_shaped it s : written (item_subs it) -> In s (item_sites [] it) -> shaped s.
Proof. intros Hw. destruct shapes_all as (_ & _ & H & _). specialize (H it [] Hw). unfold shapes in H. rewrite Forall_forall in H. apply H. Qed.

(** every [?] of the source is a position, in order *)
Lemma try_positions it : written (item_subs it) ->
  map s_whole (filter (fun s => match s_kind s with KTry => true | _ => false end) (item_sites [] it)) =
  filter (fun e => match e with ETry _ _ _ => true | _ => false end) (item_subs it).
Proof.
  intros Hw. destruct exits_all as (_ & _ & HX & _). specialize (HX it [] Hw). unfold exits, exit_subs in HX.
  assert (HS : Forall shaped (item_sites [] it)) by (apply Forall_forall; intros s; apply item_shaped; assumption).
  assert (Hf : forall l, filter (fun e => match e with ETry _ _ _ => true | _ => false end) (filter exit_expr l) = filter (fun e => match e with ETry _ _ _ => true | _ => false end) l).
  { induction l as [|e l IH]; [reflexivity|]. cbn [filter]. destruct e; cbn; try exact IH; [|now rewrite IH]. destruct e; cbn; exact IH. }
  rewrite <- Hf, <- HX. clear Hf HX Hw. induction HS as [|s l Hs HS IH]; [reflexivity|]. destruct Hs as [Hs _]. cbn [filter]. unfold exit_site at 1.
  destruct (s_kind s) eqn:Ek; cbn [map filter]; [destruct Hs as (a & fr & -> & _)|destruct Hs as (a & fr & -> & _)|]; cbn; rewrite ?IH; reflexivity.
Qed.
Lemma return_positions it : written (item_subs it) ->
  map s_whole (filter (fun s => match s_kind s with KReturn => true | _ => false end) (item_sites [] it)) =
  filter (fun e => match e with EReturn _ _ (Some _) => true | _ => false end) (item_subs it).
Proof.
  intros Hw. destruct exits_all as (_ & _ & HX & _). specialize (HX it [] Hw). unfold exits, exit_subs in HX.
  assert (HS : Forall shaped (item_sites [] it)) by (apply Forall_forall; intros s; apply item_shaped; assumption).
  assert (Hf : forall l, filter (fun e => match e with EReturn _ _ (Some _) => true | _ => false end) (filter exit_expr l) = filter (fun e => match e with EReturn _ _ (Some _) => true | _ => false end) l).
  { induction l as [|e l IH]; [reflexivity|]. cbn [filter]. destruct e; cbn; try exact IH. destruct e; cbn; [now rewrite IH|exact IH]. }
  rewrite <- Hf, <- HX. clear Hf HX Hw. induction HS as [|s l Hs HS IH]; [reflexivity|]. destruct Hs as [Hs _]. cbn [filter]. unfold exit_site at 1.
  destruct (s_kind s) eqn:Ek; cbn [map filter]; [destruct Hs as (a & fr & -> & _)|destruct Hs as (a & fr & -> & _)|]; cbn; rewrite ?IH; reflexivity.
Qed.
