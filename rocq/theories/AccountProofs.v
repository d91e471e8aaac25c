(** The positions of [SiteSpec] are all there are: every [?] and [return] of the source is one of them, and every hook
    of the output is at one of them.  *)
From Coq Require Import String Ascii Bool Arith Lia List.
From Verif Require Import Base Tokens Method Paths Context Flavor Attrs Syntax SyntaxInd Render Walker AttrSpec AttrProofs SiteSpec ProgSpec WalkFacts BareProofs SiteProofs.
Import ListNotations.
Open Scope string_scope.
Open Scope list_scope.
Open Scope monad_scope.

Ltac dcbn :=
  cbn [sites stmt_sites item_sites impl_sites trait_sites arm_sites field_sites mac_sites ev_sites];
  try fold sites; try fold stmt_sites; try fold item_sites; try fold impl_sites; try fold trait_sites; try fold arm_sites; try fold field_sites;
  try fold mac_sites; try fold ev_sites.
Ltac scbn_goal :=
  cbn [subs stmt_subs item_subs impl_subs trait_subs arm_subs field_subs mac_subs ev_subs];
  try fold subs; try fold stmt_subs; try fold item_subs; try fold impl_subs; try fold trait_subs;
  try fold arm_subs; try fold field_subs; try fold mac_subs; try fold ev_subs.
Ltac scbn H :=
  cbn [subs stmt_subs item_subs impl_subs trait_subs arm_subs field_subs mac_subs ev_subs] in H;
  try fold subs in H; try fold stmt_subs in H; try fold item_subs in H; try fold impl_subs in H; try fold trait_subs in H;
  try fold arm_subs in H; try fold field_subs in H; try fold mac_subs in H; try fold ev_subs in H.
Ltac wsplit :=
  repeat match goal with
  | H : written (_ ++ _) |- _ => apply written_app in H; destruct H
  | H : written (flat_map _ _) |- _ => apply written_flat in H
  | H : written (opt_list subs _) |- _ => apply written_opt in H
  end.

(** * Source *)
Definition exit_expr (e : expr) : bool := match e with ETry _ _ _ | EReturn _ _ (Some _) => true | _ => false end.
Definition exit_site (s : site) : bool := match s_kind s with KTail _ => false | _ => true end.
Definition exits (l : list site) : list expr := map s_whole (filter exit_site l).
Definition exit_subs (l : list expr) : list expr := filter exit_expr l.

Lemma exits_app a b : exits (a ++ b) = exits a ++ exits b.
Proof. unfold exits. rewrite filter_app, map_app. reflexivity. Qed.
Lemma exit_subs_app a b : exit_subs (a ++ b) = exit_subs a ++ exit_subs b.
Proof. apply filter_app. Qed.
Lemma exits_flat {A} (g : A -> list site) (f : A -> list expr) l : Forall (fun x => exits (g x) = exit_subs (f x)) l -> exits (flat_map g l) = exit_subs (flat_map f l).
Proof. induction 1; [reflexivity|]. cbn [flat_map]. rewrite exits_app, exit_subs_app. congruence. Qed.
Lemma exits_last {A} (g1 g2 : A -> list site) (f : A -> list expr) l :
  Forall (fun x => exits (g1 x) = exit_subs (f x) /\ exits (g2 x) = exit_subs (f x)) l -> exits (last_map g1 g2 l) = exit_subs (flat_map f l).
Proof.
  induction 1 as [|x l [H1 H2] HF IH]; [reflexivity|]. cbn [flat_map]. rewrite exit_subs_app. destruct l as [|x2 l].
  - cbn [last_map flat_map exit_subs filter]. rewrite app_nil_r. exact H2.
  - change (last_map g1 g2 (x :: x2 :: l)) with (g1 x ++ last_map g1 g2 (x2 :: l)). rewrite exits_app. congruence.
Qed.

Definition X_expr (e : expr) : Prop := forall fr, written (subs e) -> exits (sites fr e) = exit_subs (subs e).
Definition X_stmt (s : stmt) : Prop := forall t fr, written (stmt_subs s) -> exits (stmt_sites t fr s) = exit_subs (stmt_subs s).
Definition X_item (s : item) : Prop := forall fr, written (item_subs s) -> exits (item_sites fr s) = exit_subs (item_subs s).
Definition X_impl (s : impl_item) : Prop := forall fr, written (impl_subs s) -> exits (impl_sites fr s) = exit_subs (impl_subs s).
Definition X_trait (s : trait_item) : Prop := forall fr, written (trait_subs s) -> exits (trait_sites fr s) = exit_subs (trait_subs s).
Definition X_arm (s : arm) : Prop := forall fr, written (arm_subs s) -> exits (arm_sites fr s) = exit_subs (arm_subs s).
Definition X_field (s : fieldv) : Prop := forall fr, written (field_subs s) -> exits (field_sites fr s) = exit_subs (field_subs s).
Definition X_mac (s : mac) : Prop := forall fr, written (mac_subs s) -> exits (mac_sites fr s) = exit_subs (mac_subs s).
Definition X_ev (s : evaluable) : Prop := forall fr, written (ev_subs s) -> exits (ev_sites fr s) = exit_subs (ev_subs s).

Lemma exits_tail fn fr e : X_expr e -> written (subs e) -> exits (at_tail (sites fr) fn fr e) = exit_subs (subs e).
Proof.
  intros He Hw. unfold at_tail. destruct (written_on TailExpr e Hw) as (-> & -> & Hu). rewrite Hu, exits_app, He by assumption.
  destruct (verbatim e); apply app_nil_r.
Qed.
Ltac xleaf :=
  repeat match goal with
  | |- exits (_ ++ _) = _ => rewrite exits_app
  | |- context [exit_subs (_ ++ _)] => rewrite exit_subs_app
  | |- context [exit_subs [?e]] => change (exit_subs [e]) with (@nil expr)
  | |- context [_ ++ []] => rewrite app_nil_r
  | |- _ ++ _ = _ ++ _ => f_equal
  | IH : X_expr ?e |- exits (sites _ ?e) = exit_subs (subs ?e) => apply IH; assumption
  | IH : X_mac ?e |- exits (mac_sites _ ?e) = exit_subs (mac_subs ?e) => apply IH; assumption
  | IH : X_item ?e |- exits (item_sites _ ?e) = exit_subs (item_subs ?e) => apply IH; assumption
  | IH : X_stmt ?e |- exits (stmt_sites _ _ ?e) = exit_subs (stmt_subs ?e) => apply IH; assumption
  | |- exits (opt_list _ ?o) = exit_subs (opt_list _ ?o) => destruct o; cbn [opt_list optP] in *; [|reflexivity]
  | HW : Forall (fun _ => written _) ?b, HD : Forall ?P ?b |- exits (last_map _ _ ?b) = exit_subs (flat_map _ ?b) =>
      apply exits_last; eapply (Forall_mp P); [|exact HD|exact HW]; cbv beta;
      let H1 := fresh in let H2 := fresh in intros ? H1 H2; split; solve [apply H1; exact H2]
  | HW : Forall (fun _ => written _) ?b, HD : Forall ?P ?b |- exits (flat_map _ ?b) = exit_subs (flat_map _ ?b) =>
      apply exits_flat; eapply (Forall_mp P); [|exact HD|exact HW]; cbv beta;
      let H1 := fresh in let H2 := fresh in intros ? H1 H2; solve [apply H1; exact H2]
  end.
Lemma exits_all : (forall x, X_expr x) /\ (forall x, X_stmt x) /\ (forall x, X_item x) /\ (forall x, X_impl x) /\ (forall x, X_trait x) /\
  (forall x, X_arm x) /\ (forall x, X_field x) /\ (forall x, X_mac x) /\ (forall x, X_ev x).
Proof.
  apply syntax_ind2; intros.
  all: match goal with
       | |- X_stmt _ => intros tt fr Hw
       | _ => intros fr Hw
       end; scbn Hw; wsplit; dcbn; scbn_goal.
  all: try reflexivity.
  all: try solve [xleaf].
  - rewrite exit_subs_app. change (exit_subs [EClosure a hd out body]) with (@nil expr). rewrite app_nil_r.
    destruct body; try (apply exits_tail; assumption). cbn [stmts_of] in *. scbn H1. wsplit. scbn_goal. xleaf.
  - destruct e as [e0|]; [|reflexivity]. cbn [optP opt_list] in *. destruct (written_on Return e0 H0) as (_ & _ & Hu). rewrite Hu, exits_app, exit_subs_app. f_equal. xleaf.
  - destruct (written_on Question e H0) as (_ & _ & Hu). rewrite Hu, exits_app, exit_subs_app. f_equal. xleaf.
  - discriminate.
  - destruct semi; [xleaf|]. destruct tt; [|xleaf]. apply exits_tail; assumption.
  - destruct name; xleaf.
  - rewrite exits_app, exit_subs_app. f_equal; [xleaf|]. destruct body; try xleaf; apply exits_tail; assumption.
  - destruct view; [|reflexivity]. cbn [optP] in *. wsplit. xleaf.
Qed.

(** * Output *)
Definition site_hooks (l : list site) : list hook := flat_map (fun s => match s_hook s with Some (h, _) => [h] | None => [] end) l.
Lemma site_hooks_app a b : site_hooks (a ++ b) = site_hooks a ++ site_hooks b.
Proof. apply flat_map_app. Qed.
Lemma hooks_of_app a b : hooks_of (a ++ b) = hooks_of a ++ hooks_of b.
Proof. apply flat_map_app. Qed.


(** the hooks of positions, and those among the parts of a program, with what they replace *)
Definition site_nodes (l : list site) : list expr := flat_map (fun s => match s_hook s with Some (h, r) => [EHook h (s_target s) r] | None => [] end) l.
Definition hook_nodes (l : list expr) : list expr := filter (fun e => match e with EHook _ _ _ => true | _ => false end) l.
Lemma site_nodes_app a b : site_nodes (a ++ b) = site_nodes a ++ site_nodes b.
Proof. apply flat_map_app. Qed.
Lemma hook_nodes_app a b : hook_nodes (a ++ b) = hook_nodes a ++ hook_nodes b.
Proof. apply filter_app. Qed.
Lemma written_nodes l : written l -> hook_nodes l = [].
Proof. unfold written. induction l as [|e l IH]; [reflexivity|]. intros H. destruct e; try exact (IH H). discriminate. Qed.
Lemma site_nodes_hooks l : site_hooks l = hooks_of (site_nodes l).
Proof. induction l as [|s l IH]; [reflexivity|]. unfold site_hooks, site_nodes in *. cbn [flat_map]. rewrite hooks_of_app, IH. destruct (s_hook s) as [[h r]|]; reflexivity. Qed.
Lemma hook_nodes_hooks l : hooks_of (hook_nodes l) = hooks_of l.
Proof. induction l as [|e l IH]; [reflexivity|]. destruct e; try exact IH. cbn. f_equal. exact IH. Qed.

(** nothing is hooked in the source *)
Definition none (l : list site) : Prop := site_nodes l = [].
Lemma none_app a b : none a -> none b -> none (a ++ b).
Proof. unfold none. rewrite site_nodes_app. intros -> ->. reflexivity. Qed.
Lemma none_flat {A} (g : A -> list site) l : Forall (fun x => none (g x)) l -> none (flat_map g l).
Proof. induction 1; [reflexivity|]. cbn [flat_map]. apply none_app; assumption. Qed.
Lemma none_last {A} (g1 g2 : A -> list site) l : Forall (fun x => none (g1 x) /\ none (g2 x)) l -> none (last_map g1 g2 l).
Proof.
  induction 1 as [|x l [H1 H2] HF IH]; [reflexivity|]. destruct l as [|x2 l]; [exact H2|].
  change (last_map g1 g2 (x :: x2 :: l)) with (g1 x ++ last_map g1 g2 (x2 :: l)). apply none_app; assumption.
Qed.
Definition N_expr (s : expr) : Prop := forall fr, written (subs s) -> none (sites fr s).
Definition N_stmt (s : stmt) : Prop := forall t fr, written (stmt_subs s) -> none (stmt_sites t fr s).
Definition N_item (s : item) : Prop := forall fr, written (item_subs s) -> none (item_sites fr s).
Definition N_impl (s : impl_item) : Prop := forall fr, written (impl_subs s) -> none (impl_sites fr s).
Definition N_trait (s : trait_item) : Prop := forall fr, written (trait_subs s) -> none (trait_sites fr s).
Definition N_arm (s : arm) : Prop := forall fr, written (arm_subs s) -> none (arm_sites fr s).
Definition N_field (s : fieldv) : Prop := forall fr, written (field_subs s) -> none (field_sites fr s).
Definition N_mac (s : mac) : Prop := forall fr, written (mac_subs s) -> none (mac_sites fr s).
Definition N_ev (s : evaluable) : Prop := forall fr, written (ev_subs s) -> none (ev_sites fr s).

Lemma none_tail fn fr e : N_expr e -> written (subs e) -> none (at_tail (sites fr) fn fr e).
Proof.
  intros He Hw. unfold at_tail. destruct (written_on TailExpr e Hw) as (-> & -> & Hu). rewrite Hu. apply none_app; [apply He; assumption|].
  destruct (verbatim e); reflexivity.
Qed.
Ltac nleaf :=
  repeat match goal with
  | |- none (_ ++ _) => apply none_app
  | |- none [] => reflexivity
  | IH : N_expr ?e |- none (sites _ ?e) => apply IH; assumption
  | IH : N_mac ?e |- none (mac_sites _ ?e) => apply IH; assumption
  | IH : N_item ?e |- none (item_sites _ ?e) => apply IH; assumption
  | IH : N_stmt ?e |- none (stmt_sites _ _ ?e) => apply IH; assumption
  | |- none (opt_list _ ?o) => destruct o; cbn [opt_list optP] in *; [|reflexivity]
  | HW : Forall (fun _ => written _) ?b, HD : Forall ?P ?b |- none (last_map _ _ ?b) =>
      apply none_last; eapply (Forall_mp P); [|exact HD|exact HW]; cbv beta;
      let H1 := fresh in let H2 := fresh in intros ? H1 H2; split; solve [apply H1; exact H2]
  | HW : Forall (fun _ => written _) ?b, HD : Forall ?P ?b |- none (flat_map _ ?b) =>
      apply none_flat; eapply (Forall_mp P); [|exact HD|exact HW]; cbv beta;
      let H1 := fresh in let H2 := fresh in intros ? H1 H2; solve [apply H1; exact H2]
  end.
Lemma none_all : (forall x, N_expr x) /\ (forall x, N_stmt x) /\ (forall x, N_item x) /\ (forall x, N_impl x) /\ (forall x, N_trait x) /\
  (forall x, N_arm x) /\ (forall x, N_field x) /\ (forall x, N_mac x) /\ (forall x, N_ev x).
Proof.
  apply syntax_ind2; intros.
  all: match goal with
       | |- N_stmt _ => intros tt fr Hw
       | _ => intros fr Hw
       end; scbn Hw; wsplit; dcbn.
  all: try solve [nleaf].
  - destruct body; try (apply none_tail; assumption). cbn [stmts_of] in *. scbn H1. wsplit. nleaf.
  - destruct e as [e0|]; [|reflexivity]. cbn [optP opt_list] in *. destruct (written_on Return e0 H0) as (-> & -> & Hu). rewrite Hu. nleaf. reflexivity.
  - destruct (written_on Question e H0) as (-> & -> & Hu). rewrite Hu. nleaf. reflexivity.
  - discriminate.
  - destruct semi; [nleaf|]. destruct tt; [|nleaf]. apply none_tail; assumption.
  - destruct name; nleaf.
  - nleaf. destruct body; try nleaf; apply none_tail; assumption.
  - destruct view; [|reflexivity]. cbn [optP] in *. wsplit. nleaf.
Qed.

Section Output.
  Variable E : env.
  Definition acc (l : list site) (s : list expr) : Prop := site_nodes l = hook_nodes s.
  Lemma acc_hooks l s : acc l s -> site_hooks l = hooks_of s.
  Proof. intros H. rewrite site_nodes_hooks, H. apply hook_nodes_hooks. Qed.
  Definition Y_expr (e : expr) : Prop := forall ov c cnt e' cnt' fr, walk_expr E ov c e cnt = Ok (e', cnt') -> written (subs e) -> acc (sites fr e') (subs e').
  Definition Y_stmt (s : stmt) : Prop := forall tk c cnt s' cnt' fr, walk_stmt E tk c s cnt = Ok (s', cnt') -> written (stmt_subs s) -> acc (stmt_sites (tk_opt tk) fr s') (stmt_subs s').
  Definition Y_item (i : item) : Prop := forall c cnt i' cnt' fr, walk_item E c i cnt = Ok (i', cnt') -> written (item_subs i) -> acc (item_sites fr i') (item_subs i').
  Definition Y_impl (i : impl_item) : Prop := forall c cnt i' cnt' fr, walk_impl_item E c i cnt = Ok (i', cnt') -> written (impl_subs i) -> acc (impl_sites fr i') (impl_subs i').
  Definition Y_trait (i : trait_item) : Prop := forall c cnt i' cnt' fr, walk_trait_item E c i cnt = Ok (i', cnt') -> written (trait_subs i) -> acc (trait_sites fr i') (trait_subs i').
  Definition Y_arm (i : arm) : Prop := forall c cnt i' cnt' fr, walk_arm E c i cnt = Ok (i', cnt') -> written (arm_subs i) -> acc (arm_sites fr i') (arm_subs i').
  Definition Y_field (i : fieldv) : Prop := forall c cnt i' cnt' fr, walk_field E c i cnt = Ok (i', cnt') -> written (field_subs i) -> acc (field_sites fr i') (field_subs i').
  Definition Y_mac (i : mac) : Prop := forall c cnt i' cnt' fr, walk_mac E c i cnt = Ok (i', cnt') -> written (mac_subs i) -> acc (mac_sites fr i') (mac_subs i').
  Definition Y_ev (i : evaluable) : Prop := forall c cnt i' cnt' fr, walk_evaluable E c i cnt = Ok (i', cnt') -> written (ev_subs i) -> acc (ev_sites fr i') (ev_subs i').


  Lemma acc_app a b a' b' : acc a a' -> acc b b' -> acc (a ++ b) (a' ++ b').
  Proof. unfold acc. rewrite site_nodes_app, hook_nodes_app. congruence. Qed.
  Lemma acc_app0 a a' e : acc a a' -> (forall h o r, e <> EHook h o r) -> acc a (a' ++ [e]).
  Proof. unfold acc. rewrite hook_nodes_app. intros -> Hn. destruct e; try (symmetry; apply app_nil_r). exfalso. eapply Hn. reflexivity. Qed.
  Lemma acc_chain {A} (f : A -> M A) (g : A -> list site) (sb : A -> list expr) l c l' c' :
    Forall (fun x => forall c y c', f x c = Ok (y, c') -> acc (g y) (sb y)) l -> WalkFacts.chain f c l l' c' -> acc (flat_map g l') (flat_map sb l').
  Proof. intros HF H. induction H; [reflexivity|]. inversion HF as [|? ? Hx Hl]; subst. cbn [flat_map]. apply acc_app; eauto. Qed.
  Lemma acc_last {A} (f1 f2 : A -> M A) (g1 g2 : A -> list site) (sb : A -> list expr) l c l' c' :
    Forall (fun x => (forall c y c', f1 x c = Ok (y, c') -> acc (g1 y) (sb y)) /\ (forall c y c', f2 x c = Ok (y, c') -> acc (g2 y) (sb y))) l ->
    last_chain f1 f2 c l l' c' -> acc (last_map g1 g2 l') (flat_map sb l').
  Proof.
    intros HF H. induction H as [|c x y c1 H|c x y c1 x2 l y2 l' c2 H HC IH]; [reflexivity| |]; inversion HF as [|? ? [Hx Hx'] Hl]; subst.
    - cbn [last_map flat_map]. rewrite app_nil_r. eapply Hx', H.
    - change (last_map g1 g2 (y :: y2 :: l')) with (g1 y ++ last_map g1 g2 (y2 :: l')). cbn [flat_map]. apply acc_app; [eapply Hx, H|]. apply IH, Hl.
  Qed.
  Lemma es_acc c es cnt es' cnt' fr : Forall Y_expr es -> mapM (walk_expr E None c) es cnt = Ok (es', cnt') -> Forall (fun x => written (subs x)) es ->
    acc (flat_map (sites fr) es') (flat_map subs es').
  Proof.
    intros HF H HW. apply mapM_chain in H. eapply acc_chain; [|exact H]. eapply Forall_mp; [|exact HF|exact HW]. cbv beta. intros x Hx Hx2 c1 y c2 Hy. eapply Hx; eassumption.
  Qed.
  Lemma list_acc {A} (f : A -> M A) (g : A -> list site) (sb : A -> list expr) (R : A -> Prop) es cnt es' cnt' : Forall R es -> mapM f es cnt = Ok (es', cnt') ->
    Forall (fun x => written (sb x)) es ->
    (forall x, R x -> written (sb x) -> forall c y c', f x c = Ok (y, c') -> acc (g y) (sb y)) -> acc (flat_map g es') (flat_map sb es').
  Proof.
    intros HF H HW Hc. apply mapM_chain in H. eapply acc_chain; [|exact H]. eapply Forall_mp; [|exact HF|exact HW].
    cbv beta. intros x Hx Hx2 c1 y c2 Hy. eapply Hc; eassumption.
  Qed.
  Lemma block_acc tk c b n cnt b' cnt' fr : Forall Y_stmt b -> n = length b ->
    mapiM (fun j s => walk_stmt E (pos_kind tk n j) c s) 0 b cnt = Ok (b', cnt') ->
    Forall (fun x => written (stmt_subs x)) b -> acc (last_map (stmt_sites None fr) (stmt_sites (tk_opt tk) fr) b') (flat_map stmt_subs b').
  Proof.
    intros HF -> H HW. apply (block_chain0 (fun tk s => walk_stmt E tk c s)) in H. eapply acc_last; [|exact H].
    eapply Forall_mp; [|exact HF|exact HW]. cbv beta. intros x Hx Hx2. split; intros c1 y c2 Hy.
    - exact (Hx NotTarget _ _ _ _ _ Hy Hx2).
    - eapply Hx; eassumption.
  Qed.
  Lemma opt_acc c o cnt o' cnt' fr : optP Y_expr o -> optM (walk_expr E None c) o cnt = Ok (o', cnt') -> optP (fun x => written (subs x)) o ->
    acc (opt_list (sites fr) o') (opt_list subs o').
  Proof.
    intros HF H HW. apply opt_Ok in H. destruct o as [x|], o' as [y|]; try contradiction; cbn [opt_list optP] in *; [|reflexivity]. eapply HF; eassumption.
  Qed.
  Lemma tail_acc e fn tk c cnt e' cnt' fr : Y_expr e -> handle_tail_with E (fun ov c' => walk_expr E ov c' e) e c tk cnt = Ok (e', cnt') -> written (subs e) ->
    acc (at_tail (sites fr) fn fr e') (subs e').
  Proof.
    intros He H Hw. apply tail_Ok in H. destruct (get_attrs e) as [a|] eqn:Ea.
    2: { destruct H as [-> ->]. unfold acc. rewrite (written_nodes _ Hw). apply none_tail; [apply none_all|exact Hw]. }
    destruct H as (s & c1 & e1 & cnt1 & Hh & Hwalk & Hcnt & H). cbv zeta in H.
    pose proof (walk_shape E _ _ _ _ _ _ Hwalk (written_self e Hw)) as (Hsh & Hv & _). destruct (Hsh TailExpr) as (Hs1 & Hs2 & Hs3).
    assert (Hve : verbatim e = false) by (destruct e; try reflexivity; discriminate).
    assert (Hr : acc (sites fr e1) (subs e1)) by (eapply He; eassumption).
    unfold at_tail. destruct (_ && is_hook_target c1 TailExpr).
    - destruct H as (r & -> & _). cbn [unhook under_hook hook_on own h_kind h_consumed kind_eqb andb]. unfold own. cbn [h_kind h_consumed kind_eqb andb].
      rewrite Hv, Hve. scbn_goal. apply acc_app; [exact Hr|reflexivity].
    - subst e'. rewrite Hs1, Hs2, Hs3, Hv, Hve. unfold acc. rewrite site_nodes_app. cbn [site_nodes flat_map s_hook]. rewrite !app_nil_r. exact Hr.
  Qed.

  Ltac yleaf :=
    repeat match goal with
    | |- acc _ (_ ++ [?e]) => apply acc_app0; [|discriminate]
    | |- acc (_ ++ _) (_ ++ _) => apply acc_app
    | |- acc [] [] => reflexivity
    | H : walk_expr _ None _ ?e _ = Ok (?e', _), IH : Y_expr ?e |- acc (sites _ ?e') (subs ?e') => eapply IH; [exact H|assumption]
    | H : walk_mac _ _ ?e _ = Ok (?e', _), IH : Y_mac ?e |- acc (mac_sites _ ?e') (mac_subs ?e') => eapply IH; [exact H|assumption]
    | H : walk_item _ _ ?e _ = Ok (?e', _), IH : Y_item ?e |- acc (item_sites _ ?e') (item_subs ?e') => eapply IH; [exact H|assumption]
    | H : walk_stmt _ NotTarget _ ?e _ = Ok (?e', _), IH : Y_stmt ?e |- acc (stmt_sites None _ ?e') (stmt_subs ?e') => eapply (IH NotTarget); [exact H|assumption]
    | H : mapM (walk_expr _ None _) ?es _ = Ok (?es', _) |- acc (flat_map _ ?es') (flat_map _ ?es') => eapply es_acc; [|exact H|]; assumption
    | H : optM _ ?es _ = Ok (?es', _) |- acc (opt_list _ ?es') (opt_list _ ?es') => eapply opt_acc; [|exact H|]; assumption
    | H : mapiM _ 0 ?b _ = Ok (?b', _) |- acc (last_map _ (stmt_sites (Some true) _) ?b') _ => eapply (block_acc FnBlockTail); [|reflexivity|exact H|]; assumption
    | H : mapiM _ 0 ?b _ = Ok (?b', _) |- acc (last_map _ (stmt_sites (Some false) _) ?b') _ => eapply (block_acc BlockTail); [|reflexivity|exact H|]; assumption
    | H : mapM _ ?es _ = Ok (?es', _), HW : Forall (fun x => written _) ?es, HD : Forall ?P ?es |- acc (flat_map _ ?es') (flat_map _ ?es') =>
        eapply (list_acc _ _ _ P); [exact HD|exact H|exact HW|];
        cbv beta; let H1 := fresh in let H2 := fresh in let H3 := fresh in intros ? H1 H2 ? ? ? H3; solve [eapply H1; [exact H3|exact H2]]
    end.
  Lemma closure_tail_subs fr a hd out body : is_block body = false ->
    sites fr (EClosure a hd out body) = at_tail (sites (FClosure a hd out :: FAttrs a :: fr)) true (FClosure a hd out :: FAttrs a :: fr) body.
  Proof. destruct body; try discriminate; reflexivity. Qed.

  Lemma acc_all : (forall x, Y_expr x) /\ (forall x, Y_stmt x) /\ (forall x, Y_item x) /\ (forall x, Y_impl x) /\ (forall x, Y_trait x) /\
    (forall x, Y_arm x) /\ (forall x, Y_field x) /\ (forall x, Y_mac x) /\ (forall x, Y_ev x).
  Proof.
    apply syntax_ind2; intros.
    all: match goal with
         | |- Y_stmt _ => intros tk c cnt s' cnt' fr Hwalk Hw
         | |- Y_expr _ => intros ov c1 cnt e' cnt' fr Hwalk Hw
         | _ => intros c1 cnt i' cnt' fr Hwalk Hw
         end; scbn Hw; wsplit.
    all: match type of Hwalk with
         | walk_expr _ _ _ (ETry _ _ _) _ = _ => idtac
         | walk_expr _ _ _ (EReturn _ _ _) _ = _ => idtac
         | walk_expr _ _ _ (EClosure _ _ _ _) _ = _ => idtac
         | walk_stmt _ _ _ (SExpr _ _) _ = _ => idtac
         | walk_arm _ _ _ _ = _ => idtac
         | walk_mac _ _ _ _ = _ => idtac
         | walk_item _ _ (IMacro _ _ _ _) _ = _ => idtac
         | _ => wcbn E Hwalk; winv; dcbn; scbn_goal; yleaf
         end.
    - unfold acc. rewrite (written_nodes _ H1). apply none_all; assumption.
    - (* closure *)
      apply closure_Ok in Hwalk. destruct Hwalk as (s & c2 & body' & Hh & -> & Hbody). cbv zeta in *. scbn_goal. apply acc_app0; [|discriminate].
      destruct Hbody as [(ba & lbl & bsp & b & s3 & c3 & b' & -> & -> & Hh3 & Hb3)|[Hnb Hbody]].
      + cbn [stmts_of] in H0. scbn H1. wsplit. dcbn. scbn_goal. yleaf.
      + assert (Hnb' : is_block body = false) by (destruct body; try reflexivity; exfalso; eapply Hnb; reflexivity).
        assert (Hnb2 : is_block body' = false) by (eapply (tail_block E); eassumption).
        rewrite closure_tail_subs by assumption. eapply tail_acc; eassumption.
    - (* return *)
      destruct e as [e0|]; [|wcbn E Hwalk; winv; reflexivity]. cbn [optP] in *. apply return_Ok in Hwalk.
      destruct Hwalk as (s & c2 & e1 & cnt1 & Hh & Hwe & Hcnt & Hwalk). cbv zeta in *.
      pose proof (walk_shape E _ _ _ _ _ _ Hwe (written_self e0 H0)) as [Hsh _]. destruct (Hsh Return) as (Hs1 & Hs2 & Hs3).
      destruct (_ && is_hook_target c2 Return).
      + destruct Hwalk as (r & -> & _). dcbn. scbn_goal. cbn [opt_list unhook under_hook hook_on]. unfold own. cbn [h_kind h_consumed kind_eqb andb].
        apply acc_app0; [|discriminate]. scbn_goal. apply acc_app; [yleaf|reflexivity].
      + subst e'. dcbn. scbn_goal. cbn [opt_list]. rewrite Hs1, Hs2, Hs3. apply acc_app; [yleaf|reflexivity].
    - (* try *)
      apply try_Ok in Hwalk. destruct Hwalk as (s & c2 & e1 & cnt1 & Hh & Hwe & Hcnt & Hwalk). cbv zeta in *.
      pose proof (walk_shape E _ _ _ _ _ _ Hwe (written_self e H0)) as [Hsh _]. destruct (Hsh Question) as (Hs1 & Hs2 & Hs3).
      destruct (_ && is_hook_target c2 Question).
      + destruct Hwalk as (r & -> & _). destruct (m_exc _); dcbn; scbn_goal; cbn [opt_list unhook under_hook hook_on h_consumed]; unfold own; cbn [h_kind h_consumed kind_eqb andb].
        * apply acc_app; [yleaf|reflexivity].
        * apply acc_app0; [|discriminate]. apply acc_app; [yleaf|reflexivity].
      + subst e'. dcbn. scbn_goal. rewrite Hs1, Hs2, Hs3. apply acc_app; [yleaf|reflexivity].
    - discriminate.
    - (* expression statement *)
      apply stmt_expr_Ok in Hwalk. destruct Hwalk as (e' & -> & Hwalk). dcbn. scbn_goal. destruct semi as [sp|]; [rewrite andb_false_r in Hwalk; yleaf|].
      rewrite andb_true_r in Hwalk. destruct tk; cbn [is_target tk_opt] in *; [| |yleaf]; eapply tail_acc; eassumption.
    - destruct name; wcbn E Hwalk; winv; dcbn; scbn_goal; [unfold acc; rewrite (written_nodes _ Hw); apply none_all; assumption|yleaf].
    - (* arm *)
      apply arm_Ok in Hwalk. destruct Hwalk as (g' & b' & cnt1 & Hg & -> & Hbody).
      destruct Hbody as [[(ba & lbl & bsp & b & ->) Hbody]|[Hnb Hbody]].
      + pose proof (walk_shape E _ _ _ _ _ _ Hbody (written_self _ H2)) as (_ & _ & Hblk). apply is_block_true in Hblk.
        destruct Hblk as (? & ? & ? & ? & ->). dcbn. scbn_goal. apply acc_app; [yleaf|]. exact (H0 None c1 cnt1 _ cnt' fr Hbody H2).
      + assert (Hnb' : is_block body = false) by (destruct body; try reflexivity; exfalso; eapply Hnb; reflexivity).
        assert (Hnb2 : is_block b' = false) by (eapply (tail_block E); eassumption).
        rewrite arm_tail by assumption. scbn_goal. apply acc_app; [yleaf|]. eapply tail_acc; eassumption.
    - (* macro *)
      apply mac_Ok in Hwalk. destruct Hwalk as [(-> & -> & Hwalk)|(Hm & l & l' & -> & Hwalk & ->)].
      + unfold acc. transitivity (@nil expr); [apply none_all; exact Hw|symmetry; apply written_nodes, Hw].
      + dcbn. scbn_goal. cbn [optP] in *. wsplit. yleaf.
  Qed.
End Output.
