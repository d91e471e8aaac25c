(** Facts about the hook of a position, used by the property files.  *)
From Coq Require Import String Ascii Bool Arith Lia List.
From Verif Require Import Base Tokens Method Paths Context Flavor Attrs Syntax SyntaxInd Render Walker RootAttr RenderSpec RenderProofs AttrSpec AttrProofs SiteSpec ProgSpec WalkFacts BareProofs SiteProofs AccountProofs SettingSpec SettingProofs WalkSpec WalkProofs TextSpec TextProofs ShapeProofs.
Import ListNotations.
Open Scope string_scope.
Open Scope list_scope.
Open Scope monad_scope.

(** * The [?] that are left *)
Definition is_try (e : expr) : bool := match e with ETry _ _ _ => true | _ => false end.
Definition consumed (s : site) : bool := match s_hook s with Some (h, _) => match h_consumed h with Some _ => true | None => false end | None => false end.
Definition left_try (s : site) : bool := match s_kind s with KTry => negb (consumed s) | _ => false end.
Definition lefts (l : list site) : list expr := map s_whole (filter left_try l).
Definition tries (l : list expr) : list expr := filter is_try l.
Lemma lefts_app a b : lefts (a ++ b) = lefts a ++ lefts b.
Proof. unfold lefts. rewrite filter_app, map_app. reflexivity. Qed.
Lemma tries_app a b : tries (a ++ b) = tries a ++ tries b.
Proof. apply filter_app. Qed.
Lemma lefts_flat {A} (g : A -> list site) (f : A -> list expr) l : Forall (fun x => lefts (g x) = tries (f x)) l -> lefts (flat_map g l) = tries (flat_map f l).
Proof. induction 1; [reflexivity|]. cbn [flat_map]. rewrite lefts_app, tries_app. congruence. Qed.
Lemma lefts_last {A} (g1 g2 : A -> list site) (f : A -> list expr) l :
  Forall (fun x => lefts (g1 x) = tries (f x) /\ lefts (g2 x) = tries (f x)) l -> lefts (last_map g1 g2 l) = tries (flat_map f l).
Proof.
  induction 1 as [|x l [H1 H2] HF IH]; [reflexivity|]. cbn [flat_map]. rewrite tries_app. destruct l as [|x2 l].
  - cbn [last_map flat_map tries filter]. rewrite app_nil_r. exact H2.
  - change (last_map g1 g2 (x :: x2 :: l)) with (g1 x ++ last_map g1 g2 (x2 :: l)). rewrite lefts_app. congruence.
Qed.
Definition L_expr (e : expr) : Prop := forall fr, lefts (sites fr e) = tries (subs e).
Definition L_stmt (s : stmt) : Prop := forall t fr, lefts (stmt_sites t fr s) = tries (stmt_subs s).
Definition L_item (s : item) : Prop := forall fr, lefts (item_sites fr s) = tries (item_subs s).
Definition L_impl (s : impl_item) : Prop := forall fr, lefts (impl_sites fr s) = tries (impl_subs s).
Definition L_trait (s : trait_item) : Prop := forall fr, lefts (trait_sites fr s) = tries (trait_subs s).
Definition L_arm (s : arm) : Prop := forall fr, lefts (arm_sites fr s) = tries (arm_subs s).
Definition L_field (s : fieldv) : Prop := forall fr, lefts (field_sites fr s) = tries (field_subs s).
Definition L_mac (s : mac) : Prop := forall fr, lefts (mac_sites fr s) = tries (mac_subs s).
Definition L_ev (s : evaluable) : Prop := forall fr, lefts (ev_sites fr s) = tries (ev_subs s).

Lemma own_kept k h : own k h = true -> h_consumed h = None.
Proof. unfold own. destruct (h_consumed h); [rewrite andb_false_r; discriminate|auto]. Qed.
Lemma unhook_sites k fr e : unhook k (sites fr) e = sites fr e.
Proof. destruct e; try reflexivity. cbn [unhook]. destruct (own k h) eqn:Eo; [|reflexivity]. cbn [sites]. rewrite (own_kept _ _ Eo). reflexivity. Qed.
Lemma hook_on_kept k e h r : hook_on k e = Some (h, r) -> h_consumed h = None.
Proof. destruct e; try discriminate. cbn [hook_on]. destruct (own k h0) eqn:Eo; [|discriminate]. intros H. inversion H; subst. eapply own_kept, Eo. Qed.
Lemma lefts_tail fn fr e : L_expr e -> lefts (at_tail (sites fr) fn fr e) = tries (subs e).
Proof. intros He. unfold at_tail. rewrite unhook_sites, lefts_app, He. destruct (verbatim _); apply app_nil_r. Qed.
Ltac lleaf :=
  repeat match goal with
  | |- lefts (_ ++ _) = _ => rewrite lefts_app
  | |- context [tries (_ ++ _)] => rewrite tries_app
  | |- context [tries [?e]] => change (tries [e]) with (@nil expr)
  | |- context [_ ++ []] => rewrite app_nil_r
  | |- _ ++ _ = _ ++ _ => f_equal
  | IH : L_expr ?e |- lefts (sites _ ?e) = tries (subs ?e) => apply IH
  | IH : L_mac ?e |- lefts (mac_sites _ ?e) = tries (mac_subs ?e) => apply IH
  | IH : L_item ?e |- lefts (item_sites _ ?e) = tries (item_subs ?e) => apply IH
  | IH : L_stmt ?e |- lefts (stmt_sites _ _ ?e) = tries (stmt_subs ?e) => apply IH
  | |- lefts (opt_list _ ?o) = tries (opt_list _ ?o) => destruct o; cbn [opt_list optP] in *; [|reflexivity]
  | HD : Forall ?P ?b |- lefts (last_map _ _ ?b) = tries (flat_map _ ?b) =>
      apply lefts_last; eapply Forall_impl; [|exact HD]; cbv beta; let H1 := fresh in intros ? H1; split; solve [apply H1]
  | HD : Forall ?P ?b |- lefts (flat_map _ ?b) = tries (flat_map _ ?b) =>
      apply lefts_flat; eapply Forall_impl; [|exact HD]; cbv beta; let H1 := fresh in intros ? H1; solve [apply H1]
  end.
Lemma lefts_all : (forall x, L_expr x) /\ (forall x, L_stmt x) /\ (forall x, L_item x) /\ (forall x, L_impl x) /\ (forall x, L_trait x) /\
  (forall x, L_arm x) /\ (forall x, L_field x) /\ (forall x, L_mac x) /\ (forall x, L_ev x).
Proof.
  apply syntax_ind2; intros.
  all: match goal with
       | |- L_stmt _ => intros tt fr
       | _ => intros fr
       end; dcbn; scbn_goal.
  all: try reflexivity.
  all: try solve [lleaf].
  - rewrite tries_app. change (tries [EClosure a hd out body]) with (@nil expr). rewrite app_nil_r.
    destruct body; try (apply lefts_tail; assumption). cbn [stmts_of] in *. scbn_goal. lleaf.
  - destruct e as [e0|]; [|reflexivity]. cbn [optP opt_list] in *. rewrite unhook_sites, lefts_app, tries_app. f_equal. lleaf.
  - rewrite unhook_sites, lefts_app, tries_app. f_equal; [lleaf|]. unfold lefts. cbn [filter]. unfold left_try, consumed. cbn [s_kind s_hook].
    destruct (hook_on Question e) as [[h r]|] eqn:Eh; [rewrite (hook_on_kept _ _ _ _ Eh)|]; reflexivity.
  - destruct (h_consumed h) as [[a sp]|] eqn:Eh; [|lleaf]. rewrite lefts_app, tries_app. f_equal; [lleaf|]. unfold lefts. cbn [filter]. unfold left_try, consumed. cbn [s_kind s_hook].
    rewrite Eh. reflexivity.
  - destruct semi; [lleaf|]. destruct tt; [|lleaf]. apply lefts_tail; assumption.
  - destruct name; lleaf.
  - rewrite lefts_app, tries_app. f_equal; [lleaf|]. destruct body; try lleaf; apply lefts_tail; assumption.
  - destruct view; [|reflexivity]. cbn [optP] in *. lleaf.
Qed.

Section Hooks.
  Variable E : env.
  Variable f : fcore.
  Variables (it out : item) (s s' : site).
  Hypothesis Hx : expands E f it out.
  Hypothesis Hs : source it.
  Hypothesis Hp : position it out s s'.

  Lemma position_in : In s (item_sites [] it).
  Proof. destruct Hp as (i & H1 & _). eapply nth_error_In, H1. Qed.
  Lemma position_in' : In s' (item_sites [] out).
  Proof. destruct Hp as (i & _ & H2). eapply nth_error_In, H2. Qed.
  Lemma position_shaped : shaped s.
  Proof. eapply item_shaped; [exact Hs|exact position_in]. Qed.
  Lemma position_kind : s_kind s' = s_kind s /\ s_span s' = s_span s.
  Proof. destruct (position_treated _ _ _ _ _ _ Hx Hs Hp) as (n & n' & []); auto. Qed.
  Lemma target_written : written (subs (s_target s)).
  Proof.
    destruct position_shaped as (H & _ & Hw). destruct (s_kind s).
    - destruct H as (a & fr & H & _). rewrite H in Hw. cbn [subs] in Hw. apply written_app in Hw. apply Hw.
    - destruct H as (a & fr & H & _). rewrite H in Hw. cbn [subs opt_list] in Hw. apply written_app in Hw. apply Hw.
    - destruct H as [H _]. rewrite <- H. exact Hw.
  Qed.
  (** what is hooked is not itself a hook of that position *)
  Lemma hooked_once k : hook_on k (s_target s') = None.
  Proof.
    destruct (position_treated _ _ _ _ _ _ Hx Hs Hp) as (n & n' & Ht). destruct (treated_walked _ _ _ _ _ _ Ht) as [->|H].
    - apply written_on, target_written.
    - destruct H as (ov & c & cnt & cnt' & fr & H & Hw & _). apply walk_shape in H; [apply H|]. apply written_self, Hw.
  Qed.
  Lemma target_bare : bare (s_target s') = bare (s_target s).
  Proof.
    destruct (position_treated _ _ _ _ _ _ Hx Hs Hp) as (n & n' & Ht). destruct (treated_walked _ _ _ _ _ _ Ht) as [->|H]; [reflexivity|].
    destruct H as (ov & c & cnt & cnt' & fr & H & Hw & Hov & _). destruct (bare_all E) as (HB & _). eapply HB; eassumption.
  Qed.
  Lemma position_cases : (exists tr, trail (ev_attr E) (s_frames s) tr /\ reached f tr = true) \/ unreached (ev_attr E) f (s_frames s).
  Proof. destruct (position_treated _ _ _ _ _ _ Hx Hs Hp) as (n & n' & [c tr Ht Hr|Hu]); eauto. Qed.
  Lemma hook_made tr h r : trail (ev_attr E) (s_frames s) tr -> s_hook s' = Some (h, r) -> made_at E f tr s s' h r.
  Proof.
    intros Ht Hh. destruct (position_treated _ _ _ _ _ _ Hx Hs Hp) as (n & n' & H). destruct (treated_made _ _ _ _ _ _ _ _ H Hh) as (tr' & Ht' & _ & Hm & _).
    rewrite (trail_unique _ _ _ _ Ht Ht'). exact Hm.
  Qed.
  Lemma hook_trail h r : s_hook s' = Some (h, r) -> exists tr, trail (ev_attr E) (s_frames s) tr /\ reached f tr = true.
  Proof.
    intros Hh. destruct (position_treated _ _ _ _ _ _ Hx Hs Hp) as (n & n' & H). destruct (treated_made _ _ _ _ _ _ _ _ H Hh) as (tr' & Ht' & Hr & _). eauto.
  Qed.
  Lemma position_unreached : unreached (ev_attr E) f (s_frames s) -> s_hook s' = None.
  Proof. intros Hu. destruct (position_treated _ _ _ _ _ _ Hx Hs Hp) as (n & n' & H). eapply treated_unreached; eassumption. Qed.
  Lemma position_rule tr : trail (ev_attr E) (s_frames s) tr -> (hooked s' <-> reached f tr = true /\ rule f tr (s_kind s) (visible (s_target s'))).
  Proof. intros Ht. destruct (position_treated _ _ _ _ _ _ Hx Hs Hp) as (n & n' & H). eapply treated_rule; eassumption. Qed.
  Lemma position_rule_source tr : trail (ev_attr E) (s_frames s) tr -> s_kind s = KTry \/ keeps_form E f (s_target s) ->
    (hooked s' <-> reached f tr = true /\ rule f tr (s_kind s) (s_target s)).
  Proof. intros Ht Hk. destruct (position_treated _ _ _ _ _ _ Hx Hs Hp) as (n & n' & H). eapply treated_rule_source; eassumption. Qed.

  Lemma position_text tr h r : NoDup (keys (fl_bindings f)) -> trail (ev_attr E) (s_frames s) tr ->
    s_hook s' = Some (h, r) ->
    exists ts, hook_text (ev_str E) f tr (kind_of (s_kind s)) (h_count h) (etoks (without_own_hooq (s_whole s))) (etoks (s_target s')) (h_span h) ts /\
               ev_parse E ts = Some r.
  Proof.
    intros Hn Ht Hh. destruct (hook_made tr h r Ht Hh) as [Hk He _ Hsrc _ (ts & Hr & Hpa)]. exists ts. split; [|exact Hpa].
    rewrite <- Hk, <- Hsrc. eapply render_at; eassumption.
  Qed.
End Hooks.

(** as many positions of a kind before as after *)
Lemma filter_two {A B} (P : A -> bool) (Q : B -> bool) l : forall l', length l' = length l ->
  (forall i x y, nth_error l i = Some x -> nth_error l' i = Some y -> P x = Q y) -> length (filter P l) = length (filter Q l').
Proof.
  induction l as [|x l IH]; intros [|y l'] Hl H; try discriminate; [reflexivity|]. cbn [filter]. rewrite <- (H 0 x y eq_refl eq_refl).
  assert (IH' := IH l' (f_equal pred Hl) (fun i => H (S i))). destruct (P x); cbn [length]; congruence.
Qed.
Lemma filter_positions E f it out : expands E f it out -> source it -> (forall s s', position it out s s' -> s_kind s' = s_kind s) ->
  (forall s s', position it out s s' -> consumed s' = false) ->
  length (filter (fun s => match s_kind s with KTry => negb (consumed s) | _ => false end) (item_sites [] out)) =
  length (filter (fun s => match s_kind s with KTry => true | _ => false end) (item_sites [] it)).
Proof.
  intros H Hs Hk Hc. symmetry. apply filter_two.
  - destruct (expands_treats E f it out H Hs) as (n & HT). eapply treats_length, HT.
  - intros i x y Hx Hy. assert (Hp : position it out x y) by (exists i; auto). rewrite (Hk _ _ Hp), (Hc _ _ Hp). reflexivity.
Qed.
