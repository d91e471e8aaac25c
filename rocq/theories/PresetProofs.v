(** The presets can always be filled in.  *)
From Coq Require Import String Ascii Bool Arith Lia List.
From Verif Require Import Base Tokens Method Paths Context Flavor Attrs Syntax Render Walker RootAttr RenderSpec AttrSpec SiteSpec ProgSpec SiteProofs SettingSpec WalkSpec NodeSpec ProgressSpec ProgressProofs.
Import ListNotations.
Open Scope string_scope.
Open Scope list_scope.

(** the variables of a template *)
Fixpoint names_in (t : tt) : list string :=
  match t with
  | TGroup _ ts _ =>
      (fix go l := match l with [] => [] | t :: r => (match t, r with TPunct "$" _, TIdent n _ :: _ => [n] | _, _ => [] end) ++ names_in t ++ go r end) ts
  | _ => []
  end.
Fixpoint names (l : list tt) : list string :=
  match l with [] => [] | t :: r => (match t, r with TPunct "$" _, TIdent n _ :: _ => [n] | _, _ => [] end) ++ names_in t ++ names r end.
Lemma uses_names x ts : uses x ts -> In x (names ts).
Proof.
  induction 1 as [a b r|d ts sp r H IH|t r H IH]; cbn [names].
  - left. reflexivity.
  - cbn [app names_in]. apply in_or_app. left. exact IH.
  - apply in_or_app. right. apply in_or_app. right. exact IH.
Qed.

Definition ready (f : fcore) : Prop :=
  dollars_weak (m_template (fl_method f)) /\
  forall x, In x (names (m_template (fl_method f))) -> is_so_far x = false /\ (In x builtin \/ exists v, mget x (fl_bindings f) = Some v).
Inductive all_ready : flavor -> Prop := ar_flavor : forall c s, ready c -> (forall n g, In (n, g) s -> all_ready g) -> all_ready (Flavor c s).
Lemma mget_in {A} n (m : list (string * A)) v : mget n m = Some v -> In (n, v) m.
Proof.
  induction m as [|[k w] m IH]; [discriminate|]. cbn [mget]. destruct (String.eqb_spec n k) as [->|]; [intros H; inversion H; left; reflexivity|right; auto].
Qed.
Lemma descend_ready p : forall g h, all_ready g -> descend g p = Some h -> all_ready h.
Proof.
  induction p as [|n p IH]; intros g h Hg H; cbn [descend] in H; [inversion H; subst; exact Hg|]. destruct (mget n (f_subs g)) as [g2|] eqn:Eg; [|discriminate].
  apply mget_in in Eg. eapply IH; [|exact H]. inversion Hg as [c s _ Hall]; subst. eapply Hall, Eg.
Qed.
Ltac dollars := repeat first [apply dw_nil | apply dw_var | apply dw_group | (apply dw_tok; [intros (? & ?); discriminate|intros (? & ? & ? & ?); discriminate|])].
Ltac is_ready :=
  split; [dollars|];
  let x := fresh "x" in let H := fresh "Hx" in
  intros x H; vm_compute in H; repeat match type of H with _ \/ _ => destruct H as [<-|H] | False => destruct H end;
  (split; [reflexivity|]); first [left; vm_compute; tauto | right; eexists; reflexivity].
Lemma presets_ready ft n g : In (n, g) (preset_flavors ft) -> all_ready g.
Proof.
  unfold preset_flavors. intros H.
  assert (Hin : In g [default_flavor ft; empty_flavor ft; hook_flavor ft; log_flavor ft; anyhow_flavor ft; eyre_flavor ft; color_eyre_flavor ft; tracing_flavor ft]).
  { rewrite !in_app_iff in H. cbn [In] in *. destruct (ft_log ft), (ft_anyhow ft), (ft_eyre ft), (ft_tracing ft); cbn [In] in H; intuition congruence. }
  clear H. destruct ft as [cq ? ? ? ? crate]. cbn [In] in Hin.
  unfold default_flavor, empty_flavor, hook_flavor, log_flavor, anyhow_flavor, eyre_flavor, color_eyre_flavor, tracing_flavor, default_method, default_method_toks, log_method_toks,
    tracing_method_toks, context_method_toks, preset_prefix, let_expr, helpers_path in Hin.
  cbn [ft_consume ft_crate] in Hin.
  destruct (String.eqb crate "hooq_macros"), cq.
  all: repeat match type of Hin with _ \/ _ => destruct Hin as [<-|Hin] | False => destruct Hin end.
  all: constructor; [is_ready|cbn [map fst snd]; intros ? ? Hs; cbn [In] in Hs; repeat match type of Hs with _ \/ _ => destruct Hs as [Hs|Hs] | False => destruct Hs end; inversion Hs; subst; (constructor; [is_ready|intros ? ? []])].
Qed.

(** no hooq attribute above *)
Lemma quiet_trail env fr tr : Forall (fr_ok (fun a => node_events env a [])) fr -> trail env fr tr -> Forall (fun x => match x with SNode es => es = [] | _ => True end) tr.
Proof.
  intros HF H. revert HF. induction H as [|x y fr tr Hx Hr IH]; intros HF; [constructor|]. inversion HF; subst. constructor; [|auto].
  inversion Hx; subst; auto. eapply no_events; eassumption.
Qed.
Lemma quiet_methods f tr : Forall (fun x => match x with SNode es => es = [] | _ => True end) tr ->
  all_methods f tr = [fl_method f] /\ forall x, the_binding f x tr = mget x (fl_bindings f).
Proof.
  induction 1 as [|s tr Hs H [IH1 IH2]]; [split; reflexivity|]. unfold the_binding in *. destruct s; subst; cbn [all_methods innermost last_of]; auto.
Qed.
Lemma quiet_ok f tr : ready f -> Forall (fun x => match x with SNode es => es = [] | _ => True end) tr -> templates_ok f tr.
Proof.
  intros [Hd Hu] Hq. destruct (quiet_methods f tr Hq) as [Hm Hb]. unfold templates_ok. rewrite Hm. repeat split.
  - intros m [<-|[]]. exact Hd.
  - intros m x [<-|[]] Hx _. rewrite Hb. apply Hu, uses_names, Hx.
  - intros pre m x Hp Hx. destruct pre as [|? [|? ?]]; inversion Hp; subst. apply Hu, uses_names, Hx.
Qed.

Theorem success E f it : source it -> (forall l q, ae_flavor (ev_attr E) l <> Panic q) ->
  (forall n tr, In n (item_nodes [] it) -> n_place n = PNode -> trail (ev_attr E) (n_frames n) tr -> reached f tr = true ->
     exists es, node_events (ev_attr E) (n_attrs n) es) ->
  (forall s tr e', In s (item_sites [] it) -> due E f s tr e' -> templates_ok f tr) ->
  (forall s tr e' ts, In s (item_sites [] it) -> due E f s tr e' -> renders_to E f s tr e' ts -> ev_parse E ts <> None) ->
  exists out, expands E f it out.
Proof.
  intros Hs Hl Hn Ht Hp. pose proof (failure E f Hl it Hs) as H. unfold expands.
  destruct (walk_item E (ctx_new f) it counter0) as [[out cnt]|x|x]; [eauto| |]; exfalso.
  - destruct H as [(n & Hin & Hpl & tr & Htr & Hr & Hno)|(s & Hin & tr & e' & Hd & Hno)].
    + destruct (Hn n tr Hin Hpl Htr Hr) as (es & Hes). exact (Hno es Hes).
    + exact (Hno (Ht s tr e' Hin Hd)).
  - destruct H as (_ & s & Hin & tr & e' & ts & Hd & Hre & Hno). exact (Hp s tr e' ts Hin Hd Hre Hno).
Qed.

Theorem presets E ft p g it : source it -> (forall l q, ae_flavor (ev_attr E) l <> Panic q) -> get_flavor (preset_flavors ft) p = Ok g ->
  (forall n, In n (item_nodes [] it) -> node_events (ev_attr E) (n_attrs n) []) ->
  (forall s tr e' ts, In s (item_sites [] it) -> due E (f_core g) s tr e' -> renders_to E (f_core g) s tr e' ts -> ev_parse E ts <> None) ->
  exists out, expands E (f_core g) it out.
Proof.
  intros Hs Hl Hg Hn Hp. apply success; try assumption.
  - intros n tr Hin _ _ _. eauto.
  - intros s tr e' Hin (Htr & _). apply quiet_ok.
    + unfold get_flavor in Hg. destruct (get_flavor_inner _ p) as [g'|] eqn:Eg; [|discriminate]. inversion Hg; subst g'. unfold get_flavor_inner in Eg.
      destruct p as [|n p]; [discriminate|]. destruct (mget n (preset_flavors ft)) as [g0|] eqn:E0; [|discriminate].
      apply mget_in in E0. apply presets_ready in E0. apply (descend_ready p g0 g E0) in Eg. inversion Eg; subst. assumption.
    + destruct (fr_all (fun a => node_events (ev_attr E) a [])) as (_ & _ & HI & _).
      specialize (HI it [] Hs (Forall_nil _)). rewrite !Forall_forall in HI. eapply quiet_trail; [|exact Htr]. apply HI; [|exact Hin].
      intros n Hnin. apply Hn, Hnin.
Qed.
