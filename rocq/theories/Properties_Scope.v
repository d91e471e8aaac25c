(** Properties of attributes and their scope: C04, C05, C06, C07, C08, C27.

    [trail] reads the attributes of the nodes enclosing a position, innermost first: [SNode es] is a node with the events [es], [SScope] the start
    of a block, of the arms of a match or of the branches of an if (SettingSpec.v). *)
From Coq Require Import String Ascii Bool Arith Lia List.
From Verif Require Import Base Tokens Method Paths Context Flavor Attrs Syntax Render Walker RootAttr FlavorSpec MapFacts RenderSpec AttrSpec SiteSpec ProgSpec BareProofs AccountProofs SettingSpec SettingProofs WalkSpec WalkProofs TextSpec ShapeProofs HookProofs ScopeProofs Properties_Attrs WalkExamples Properties_Hooks.
Import ListNotations.
Open Scope string_scope.
Open Scope list_scope.

(** nodes listed one by one, those of the example say nothing *)
Ltac t_nodes := let es := fresh in let Hi := fresh in let Hx := fresh in intros es Hi Hx; cbn in Hi; repeat destruct Hi as [Hi|Hi]; try discriminate; try contradiction; inversion Hi; subst; cbn in Hx; repeat destruct Hx as [Hx|Hx]; try discriminate; try contradiction.

(** * C04: only hooks and hooq attributes change *)
(** [item_bare] undoes the hooks, with the [?] they removed, and drops hooq attributes; nothing else *)
Theorem C04_bare E f it out : expands E f it out -> source it -> item_bare out = item_bare it.
Proof. exact (C41_survive_partial E f it out). Qed.
Print Assumptions C04_bare.
(** and so does every expression of it *)
Theorem C04_targets E f it out s s' : expands E f it out -> source it -> position it out s s' ->
  bare (s_target s') = bare (s_target s) /\ s_kind s' = s_kind s /\ s_span s' = s_span s.
Proof. intros H Hs Hp. split; [exact (target_bare E f it out s s' H Hs Hp)|exact (position_kind E f it out s s' H Hs Hp)]. Qed.
Print Assumptions C04_targets.
(** a program without hooks and hooq attributes is its own bare program, up to the tokens of macros whose arguments were read *)
Example C04_ex : expands x_env x_core x_main x_out /\ source x_main /\ x_main <> x_out /\ item_bare x_main <> x_main.
Proof. split; [exact x_expands|]. split; [exact x_source|]. split; discriminate. Qed.
Example C04_ex_bare : let it := x_fn [xa_word ["inline"]] "main" x_result [semi (x_ret (EMatch [] [qi "match"] (x_name "x") call_site [Arm [] [qp "_"] [] None [qp "="; qp ">"] (x_call "Err" []) []]))] in
  item_bare it = it.
Proof. reflexivity. Qed.

(** * C05: the scope of skip *)
Theorem C05_skip E f it out s s' tr pre es post :
  expands E f it out -> source it -> position it out s s' -> trail (ev_attr E) (s_frames s) tr ->
  tr = pre ++ SNode es :: post -> ~ In SScope pre -> In EvSkip es -> ~ hooked s'.
Proof.
  intros H Hs Hp Ht -> Hn He Hh. apply (position_rule E f it out s s' H Hs Hp _ Ht) in Hh. destruct Hh as [_ Hr].
  assert (Hk : skipped (pre ++ SNode es :: post) = true).
  { apply skipped_here; [exact Hn|]. left. apply existsb_exists. exists EvSkip. auto. }
  destruct (s_kind s); destruct Hr as [Hr _]; congruence.
Qed.
Print Assumptions C05_skip.
(** Full statement: without the hypothesis that nothing around says skip_all.  Missing: a skip inside a skip_all, see [C05_beyond_refuted]. *)
Theorem C05_beyond_partial E f it out s s' tr pre mid es post :
  expands E f it out -> source it -> position it out s s' -> trail (ev_attr E) (s_frames s) tr ->
  tr = pre ++ SScope :: mid ++ SNode es :: post -> In EvSkip es -> In EvSkipAll es \/ (forall es', In (SNode es') post -> ~ In EvSkipAll es') ->
  let tr0 := pre ++ SScope :: mid ++ SNode (filter (fun e => negb (is_skip e)) es) :: post in
  hooked s' <-> reached f tr0 = true /\ rule f tr0 (s_kind s) (visible (s_target s')).
Proof.
  intros H Hs Hp Ht -> He Hn tr0. rewrite (position_rule E f it out s s' H Hs Hp _ Ht).
  assert (Hall : forall l, node_skip_all l = true <-> In EvSkipAll l).
  { intros l. unfold node_skip_all. rewrite existsb_exists. split; [intros (x & Hx & Hi); destruct x; try discriminate; exact Hx|intros Hi; exists EvSkipAll; auto]. }
  assert (Hsk : skipped (pre ++ SScope :: mid ++ SNode es :: post) = skipped tr0).
  { apply skip_forgotten. destruct Hn as [Hn|Hn]; [left; now apply Hall|right]. intros es' Hi. destruct (node_skip_all es') eqn:Ea; [|reflexivity].
    apply Hall in Ea. exfalso. exact (Hn _ Hi Ea). }
  assert (Eapp : forall x, pre ++ SScope :: mid ++ SNode x :: post = (pre ++ SScope :: mid) ++ SNode x :: post) by (intros x; rewrite <- app_assoc; reflexivity).
  unfold tr0 in *. rewrite !Eapp in *. fold (without_skip es) in *. rewrite (rule_skip f _ _ _ _ _ Hsk).
  rewrite (reached_swap f (pre ++ SScope :: mid) es (without_skip es) post); [reflexivity|]. symmetry. now apply last_of_skip.
Qed.
Print Assumptions C05_beyond_partial.
(** [#[hooq::skip_all] { #[hooq::skip] { { a()?; } } }]: hooked, though without the skip it is not *)
Definition x_hidden : item := x_fn [] "main" RetNone [semi (x_block [skip_all_] [semi (x_block [skip_] [semi (x_block [] [semi (x_try (x_call "a" []))])])])].
Theorem C05_beyond_refuted : exists E f it out s s' tr pre mid es post,
  expands E f it out /\ source it /\ position it out s s' /\ trail (ev_attr E) (s_frames s) tr /\ tr = pre ++ SScope :: mid ++ SNode es :: post /\ In EvSkip es /\
  hooked s' /\ ~ rule f (pre ++ SScope :: mid ++ SNode (filter (fun e => negb (is_skip e)) es) :: post) (s_kind s) (visible (s_target s')).
Proof.
  exists x_env, x_core, x_hidden, (out_of x_env x_core x_hidden), (site_of x_hidden 0), (site_of (out_of x_env x_core x_hidden) 0).
  eexists _, [SNode []; SScope; SNode []], [], [EvSkip], _. split; [eexists; vm_compute; reflexivity|]. split; [reflexivity|]. split; [t_position 0|]. split; [cbn; t_trail|].
  split; [reflexivity|]. split; [now left|]. split; [discriminate|]. intros [Hr _]. discriminate.
Qed.
Print Assumptions C05_beyond_refuted.
Example C05_ex : exists pre es post, trail (ev_attr x_env) (s_frames (site_of x_main 3)) (pre ++ SNode es :: post) /\ ~ In SScope pre /\ In EvSkip es /\
  position x_main x_out (site_of x_main 3) (site_of x_out 3).
Proof. eexists [], [EvSkip], _. split; [cbn; t_trail|]. split; [intros []|]. split; [now left|t_position 3]. Qed.
Example C05_ex_beyond : exists pre mid es post, trail (ev_attr x_env) (s_frames (site_of x_main 2)) (pre ++ SScope :: mid ++ SNode es :: post) /\ In EvSkip es /\
  (forall es', In (SNode es') post -> ~ In EvSkipAll es') /\ hooked (site_of x_out 2).
Proof.
  eexists [SNode []], [SNode []; SNode []], [EvSkip], _. split; [cbn; t_trail|]. split; [now left|]. split; [|discriminate]. t_nodes.
Qed.

(** * C06: the scope of skip_all *)
(** Full statement: without the hypothesis on [pre].  Missing: see [C06_skip_all_refuted], a skip in between. *)
Theorem C06_skip_all_partial E f it out s s' tr pre es post :
  expands E f it out -> source it -> position it out s s' -> trail (ev_attr E) (s_frames s) tr ->
  tr = pre ++ SNode es :: post -> In EvSkipAll es -> (forall es', In (SNode es') pre -> In EvSkip es' -> In EvSkipAll es') -> ~ hooked s'.
Proof.
  intros H Hs Hp Ht -> He Hn Hh. apply (position_rule E f it out s s' H Hs Hp _ Ht) in Hh. destruct Hh as [_ Hr].
  assert (Hk : skipped (pre ++ SNode es :: post) = true).
  { apply skip_all_skips, skip_all_below.
    - intros es' Hi Hx. unfold node_skip in Hx. apply existsb_exists in Hx. destruct Hx as (x & Hx & Hi2). destruct x; try discriminate.
      apply existsb_exists. exists EvSkipAll. split; [eapply Hn; eassumption|reflexivity].
    - apply existsb_exists. exists EvSkipAll. auto. }
  destruct (s_kind s); destruct Hr as [Hr _]; congruence.
Qed.
Print Assumptions C06_skip_all_partial.
Theorem C06_skip_all_refuted : exists E f it out s s' tr pre es post,
  expands E f it out /\ source it /\ position it out s s' /\ trail (ev_attr E) (s_frames s) tr /\ tr = pre ++ SNode es :: post /\ In EvSkipAll es /\ hooked s'.
Proof.
  exists x_env, x_core, x_hidden, (out_of x_env x_core x_hidden), (site_of x_hidden 0), (site_of (out_of x_env x_core x_hidden) 0).
  eexists _, [SNode []; SScope; SNode []; SScope; SNode [EvSkip]; SScope], [EvSkipAll], _. split; [eexists; vm_compute; reflexivity|]. split; [reflexivity|]. split; [t_position 0|].
  split; [cbn; t_trail|]. split; [reflexivity|]. split; [now left|]. discriminate.
Qed.
Print Assumptions C06_skip_all_refuted.
(** [#[hooq::skip_all] { { || { a()? } } }] *)
Example C06_ex : let it := x_fn [] "main" RetNone [semi (x_block [skip_all_] [semi (x_block [] [semi (x_closure RetNone (x_block [] [semi (x_try (x_call "a" []))]))])]); semi (x_try (x_call "b" []))] in
  expands x_env x_core it (out_of x_env x_core it) /\ summary (out_of x_env x_core it) = [(KTry, None); (KTry, Some 1)] /\
  exists pre es post, trail (ev_attr x_env) (s_frames (site_of it 0)) (pre ++ SNode es :: post) /\ In EvSkipAll es /\ (forall es', In (SNode es') pre -> In EvSkip es' -> In EvSkipAll es') /\
    2 <= length (filter (fun x => match x with SScope => true | _ => false end) pre).
Proof.
  split; [eexists; vm_compute; reflexivity|]. split; [vm_compute; reflexivity|]. eexists [SNode []; SScope; SNode []; SClosure _ _ _; SNode []; SScope; SNode []; SScope], [EvSkipAll], _.
  split; [cbn; t_trail|]. split; [now left|]. split; [|cbn; lia]. t_nodes.
Qed.

(** * C07: the innermost setting wins *)
(** no node of [pre] sets the field, [es] sets it to [v] *)
Definition sets {A} (g : list event -> option A) (pre : list step) (es : list event) (v : A) : Prop :=
  (forall es', In (SNode es') pre -> g es' = None) /\ g es = Some v.
Definition unset {A} (g : list event -> option A) (tr : list step) : Prop := forall es, In (SNode es) tr -> g es = None.
(** the settings a hook is made with *)
Theorem C07_innermost E f it out s s' tr h r pre es post :
  expands E f it out -> source it -> position it out s s' -> trail (ev_attr E) (s_frames s) tr -> s_hook s' = Some (h, r) -> tr = pre ++ SNode es :: post ->
  (forall v, sets (last_of ev_method) pre es v -> fval (cx_method (h_ctx h)) = v) /\
  (forall v, sets (last_of ev_targets) pre es v -> fval (cx_targets (h_ctx h)) = v) /\
  (forall v, sets (last_of ev_tails) pre es v -> fval (cx_tails (h_ctx h)) = v) /\
  (forall v, sets node_ignores pre es v -> fval (cx_ignores (h_ctx h)) = v) /\
  (forall v, sets (last_of ev_results) pre es v -> fval (cx_results (h_ctx h)) = v) /\
  (forall v, sets (last_of ev_macros) pre es v -> fval (cx_macros (h_ctx h)) = v).
Proof.
  intros H Hs Hp Ht Hh ->. destruct (hook_made E f it out s s' H Hs Hp _ h r Ht Hh) as [_ He _ _ _ _].
  repeat split; intros v [H1 H2].
  - rewrite (ie_method _ _ _ He). now apply innermost_at.
  - rewrite (ie_targets _ _ _ He). now apply innermost_at.
  - rewrite (ie_tails _ _ _ He). now apply innermost_at.
  - rewrite (ie_ignores _ _ _ He). now apply innermost_at.
  - rewrite (ie_results _ _ _ He). now apply innermost_at.
  - rewrite (ie_macros _ _ _ He). now apply innermost_at.
Qed.
Print Assumptions C07_innermost.
Theorem C07_root E f it out s s' tr h r :
  expands E f it out -> source it -> position it out s s' -> trail (ev_attr E) (s_frames s) tr -> s_hook s' = Some (h, r) ->
  (unset (last_of ev_method) tr -> fval (cx_method (h_ctx h)) = fl_method f) /\
  (unset (last_of ev_targets) tr -> fval (cx_targets (h_ctx h)) = fl_targets f) /\
  (unset (last_of ev_tails) tr -> fval (cx_tails (h_ctx h)) = fl_tails f) /\
  (unset node_ignores tr -> fval (cx_ignores (h_ctx h)) = fl_ignores f) /\
  (unset (last_of ev_results) tr -> fval (cx_results (h_ctx h)) = fl_results f) /\
  (unset (last_of ev_macros) tr -> fval (cx_macros (h_ctx h)) = fl_macros f).
Proof.
  intros H Hs Hp Ht Hh. destruct (hook_made E f it out s s' H Hs Hp _ h r Ht Hh) as [_ He _ _ _ _].
  repeat split; intros Hu.
  - rewrite (ie_method _ _ _ He). now apply innermost_root.
  - rewrite (ie_targets _ _ _ He). now apply innermost_root.
  - rewrite (ie_tails _ _ _ He). now apply innermost_root.
  - rewrite (ie_ignores _ _ _ He). now apply innermost_root.
  - rewrite (ie_results _ _ _ He). now apply innermost_root.
  - rewrite (ie_macros _ _ _ He). now apply innermost_root.
Qed.
Print Assumptions C07_root.
(** positions without hook: whether one is made is decided by the same settings *)
Theorem C07_decision E f it out s s' tr :
  expands E f it out -> source it -> position it out s s' -> trail (ev_attr E) (s_frames s) tr ->
  (hooked s' <-> reached f tr = true /\ rule f tr (s_kind s) (visible (s_target s'))).
Proof. intros H Hs Hp Ht. exact (position_rule E f it out s s' H Hs Hp tr Ht). Qed.
Print Assumptions C07_decision.
(** nothing but the enclosing nodes: two programs with the same nodes around a position agree there *)
Theorem C07_local E f it1 out1 s1 s1' it2 out2 s2 s2' :
  expands E f it1 out1 -> source it1 -> position it1 out1 s1 s1' -> expands E f it2 out2 -> source it2 -> position it2 out2 s2 s2' ->
  s_frames s1 = s_frames s2 -> s_kind s1 = s_kind s2 -> visible (s_target s1') = visible (s_target s2') -> (hooked s1' <-> hooked s2').
Proof.
  intros H1 Hs1 Hp1 H2 Hs2 Hp2 Hf Hk Hv. destruct (position_cases E f it1 out1 s1 s1' H1 Hs1 Hp1) as [(tr & Ht & _)|Hu].
  - rewrite (position_rule E f it1 out1 s1 s1' H1 Hs1 Hp1 tr Ht). rewrite Hf in Ht. rewrite (position_rule E f it2 out2 s2 s2' H2 Hs2 Hp2 tr Ht), Hk, Hv. reflexivity.
  - unfold hooked. rewrite (position_unreached E f it1 out1 s1 s1' H1 Hs1 Hp1 Hu). rewrite Hf in Hu. rewrite (position_unreached E f it2 out2 s2 s2' H2 Hs2 Hp2 Hu). tauto.
Qed.
Print Assumptions C07_local.
Theorem C07_local_settings E f it1 out1 s1 s1' it2 out2 s2 s2' h1 r1 h2 r2 :
  expands E f it1 out1 -> source it1 -> position it1 out1 s1 s1' -> expands E f it2 out2 -> source it2 -> position it2 out2 s2 s2' ->
  s_frames s1 = s_frames s2 -> s_hook s1' = Some (h1, r1) -> s_hook s2' = Some (h2, r2) ->
  exists tr, in_effect f tr (h_ctx h1) /\ in_effect f tr (h_ctx h2).
Proof.
  intros H1 Hs1 Hp1 H2 Hs2 Hp2 Hf Hh1 Hh2. destruct (hook_trail E f it1 out1 s1 s1' H1 Hs1 Hp1 h1 r1 Hh1) as (tr & Ht & _). exists tr.
  split; [apply (hook_made E f it1 out1 s1 s1' H1 Hs1 Hp1 tr h1 r1 Ht Hh1)|]. rewrite Hf in Ht. apply (hook_made E f it2 out2 s2 s2' H2 Hs2 Hp2 tr h2 r2 Ht Hh2).
Qed.
Print Assumptions C07_local_settings.
(** [e()?] in the [let] with [#[hooq::method(.warn($k))]]: the method is that of the [let], the rest that of the root flavor *)
Example C07_ex : exists pre es post m, trail (ev_attr x_env) (s_frames (site_of x_main 4)) (pre ++ SNode es :: post) /\ sets (last_of ev_method) pre es m /\
  m <> fl_method x_core /\ unset (last_of ev_targets) (pre ++ SNode es :: post) /\ hooked (site_of x_out 4).
Proof.
  eexists [SNode []], _, _, _. split; [cbn; t_trail|]. split; [split; [|reflexivity]|].
  - intros es' Hi. cbn in Hi. destruct Hi as [Hi|[]]. inversion Hi. reflexivity.
  - split; [discriminate|]. split; [|discriminate]. intros es Hi. cbn in Hi. repeat destruct Hi as [Hi|Hi]; try discriminate; try contradiction; inversion Hi; reflexivity.
Qed.
(** [b()?] stands under the same nodes with and without its siblings *)
Example C07_ex_local : let it1 := x_fn [] "f" RetNone [semi (x_try (x_call "a" [])); semi (x_try_a [skip_] (x_call "c" [])); semi (x_try (x_call "b" []))] in
  let it2 := x_fn [] "f" RetNone [semi (x_try (x_call "b" []))] in
  expands x_env x_core it1 (out_of x_env x_core it1) /\ expands x_env x_core it2 (out_of x_env x_core it2) /\
  s_frames (site_of it1 2) = s_frames (site_of it2 0) /\ hooked (site_of (out_of x_env x_core it1) 2).
Proof. split; [eexists; vm_compute; reflexivity|]. split; [eexists; vm_compute; reflexivity|]. split; [reflexivity|discriminate]. Qed.

(** * C08: bindings merge *)
(** what the node [es] binds [x] to *)
Definition binds (x : string) (es : list event) : option (list tt) := last_get x (flat_map ev_binds es).
Theorem C08_innermost E f it out s s' tr h r pre es post x v :
  expands E f it out -> source it -> position it out s s' -> trail (ev_attr E) (s_frames s) tr -> s_hook s' = Some (h, r) ->
  tr = pre ++ SNode es :: post -> sets (binds x) pre es v -> mget x (fval (cx_bindings (h_ctx h))) = Some v.
Proof.
  intros H Hs Hp Ht Hh -> [H1 H2]. destruct (hook_made E f it out s s' H Hs Hp _ h r Ht Hh) as [_ He _ _ _ _]. rewrite (ie_bindings _ _ _ He).
  unfold the_binding. apply innermost_at; [intros es' Hi; fold (binds x es'); now rewrite (H1 es' Hi)|]. fold (binds x es). now rewrite H2.
Qed.
Print Assumptions C08_innermost.
Theorem C08_root E f it out s s' tr h r x :
  expands E f it out -> source it -> position it out s s' -> trail (ev_attr E) (s_frames s) tr -> s_hook s' = Some (h, r) ->
  unset (binds x) tr -> mget x (fval (cx_bindings (h_ctx h))) = mget x (fl_bindings f).
Proof.
  intros H Hs Hp Ht Hh H1. destruct (hook_made E f it out s s' H Hs Hp _ h r Ht Hh) as [_ He _ _ _ _]. rewrite (ie_bindings _ _ _ He).
  unfold the_binding. apply innermost_root. intros es' Hi. fold (binds x es'). now rewrite (H1 es' Hi).
Qed.
Print Assumptions C08_root.
(** a node has no influence on the names it does not bind *)
Theorem C08_other E f it out s s' tr h r pre es post x :
  expands E f it out -> source it -> position it out s s' -> trail (ev_attr E) (s_frames s) tr -> s_hook s' = Some (h, r) ->
  tr = pre ++ SNode es :: post -> (forall e l v, In e es -> In (x, v) l -> e <> EvBind l /\ forall g, e = EvFlavor g -> fl_bindings g <> l) ->
  mget x (fval (cx_bindings (h_ctx h))) = the_binding f x (pre ++ post).
Proof.
  intros H Hs Hp Ht Hh -> Hn. destruct (hook_made E f it out s s' H Hs Hp _ h r Ht Hh) as [_ He _ _ _ _]. rewrite (ie_bindings _ _ _ He).
  unfold the_binding. apply innermost_drop. replace (last_get x (flat_map ev_binds es)) with (@None (list tt)); [reflexivity|]. symmetry.
  destruct (last_get x (flat_map ev_binds es)) as [v|] eqn:El; [|reflexivity]. exfalso. assert (Hi : In (x, v) (flat_map ev_binds es)).
  { clear - El. revert El. generalize (flat_map ev_binds es). induction l as [|[y w] l IH]; [discriminate|]. cbn [last_get]. destruct (last_get x l) as [w'|].
    - intros H. right. apply IH. congruence.
    - destruct (String.eqb_spec x y); [|discriminate]. intros H. left. congruence. }
  apply in_flat_map in Hi. destruct Hi as (e & Hin & Hi). destruct e; try contradiction; cbn [ev_binds] in Hi.
  - destruct (Hn _ l v Hin Hi) as [Hx _]. now apply Hx.
  - destruct (Hn _ (fl_bindings f0) v Hin Hi) as [_ Hx]. now apply (Hx f0).
Qed.
Print Assumptions C08_other.
(** and that is what [$x] stands for in the text of the hook (C01_text) *)
Theorem C08_value ts_str f tr k n src ets q x v : ~ In x builtin -> (var_at ts_str f tr k n src ets q x v <-> the_binding f x tr = Some v).
Proof.
  intros Hn. split; [|intros Hv; now apply va_binding]. intros Hv. inversion Hv; subst; try assumption; exfalso; apply Hn; unfold builtin; simpl in *; tauto.
Qed.
Print Assumptions C08_value.
(** fn f() { #[hooq::a = 1] { #[hooq::b = 2] #[hooq::a = 3] x()?; y()? } } *)
Definition bind_ (n v : string) : attr := xa (MNameValue (xa_path ["hooq"; n]) (VStr v call_site)).
Definition x_bindings : item := x_fn [] "f" RetNone [semi (x_block [bind_ "a" "1"] [semi (x_try_a [bind_ "b" "2"; bind_ "a" "3"] (x_call "x" [])); semi (x_try_a [bind_ "b" "4"] (x_call "y" []))])].
Definition bindings_of (it : item) (i : nat) (x : string) : option (list tt) :=
  match s_hook (site_of it i) with Some (h, _) => option_map nospan (mget x (fval (cx_bindings (h_ctx h)))) | None => None end.
Example C08_ex : let o := out_of x_env x_core x_bindings in
  (bindings_of o 0 "a", bindings_of o 0 "b", bindings_of o 0 "k") = (Some (nospan (str_lit "3")), Some (nospan (str_lit "2")), Some [qi "v"]) /\
  (bindings_of o 1 "a", bindings_of o 1 "b", bindings_of o 1 "k") = (Some (nospan (str_lit "1")), Some (nospan (str_lit "4")), Some [qi "v"]) /\
  exists pre es post v, trail (ev_attr x_env) (s_frames (site_of x_bindings 1)) (pre ++ SNode es :: post) /\ sets (binds "a") pre es v /\ length pre = 2 /\ hooked (site_of o 1).
Proof.
  split; [vm_compute; reflexivity|]. split; [vm_compute; reflexivity|]. eexists [SNode _; SScope], _, _, _. split; [cbn; t_trail|].
  split; [split; [|reflexivity]|split; [reflexivity|discriminate]]. intros es' Hi. cbn in Hi. destruct Hi as [Hi|[Hi|[]]]; [inversion Hi; reflexivity|discriminate].
Qed.

(** * C27: the empty flavor inserts nothing *)
Definition all_off (w : switch) : Prop := sw_question w = false /\ sw_return w = false /\ sw_tail w = false.
Theorem C27_no_hooks E f it out :
  expands E f it out -> source it -> all_off (fl_targets f) ->
  (forall s tr, In s (item_sites [] it) -> trail (ev_attr E) (s_frames s) tr -> unset (last_of ev_targets) tr) ->
  hooks_of (item_subs out) = [] /\ item_bare out = item_bare it.
Proof.
  intros H Hs Hoff Hun. split; [|exact (C04_bare E f it out H Hs)]. rewrite (C01_all_hooks E f it out H Hs).
  assert (Hnone : forall s', In s' (item_sites [] out) -> s_hook s' = None).
  { intros s' Hi. destruct (position_onto E f it out s' H Hs Hi) as (s & Hp). destruct (s_hook s') as [[h r]|] eqn:Hh; [|reflexivity]. exfalso.
    destruct (hook_trail E f it out s s' H Hs Hp h r Hh) as (tr & Ht & _). assert (Hhk : hooked s') by (unfold hooked; congruence).
    apply (position_rule E f it out s s' H Hs Hp tr Ht) in Hhk. destruct Hhk as [_ Hr].
    assert (Htg : the_targets f tr = fl_targets f) by (apply innermost_root, (Hun s tr); [eapply position_in; eassumption|exact Ht]).
    destruct Hoff as (O1 & O2 & O3). destruct (s_kind s); [destruct Hr as [_ Hr]|destruct Hr as (_ & Hr & _)|destruct Hr as (_ & Hr & _)]; rewrite Htg in Hr; congruence. }
  clear - Hnone. induction (item_sites [] out) as [|s l IH]; [reflexivity|]. cbn [flat_map]. rewrite (Hnone s (or_introl eq_refl)). apply IH. intros s' Hi. apply Hnone. now right.
Qed.
Print Assumptions C27_no_hooks.
(** the preset [empty] is such a flavor *)
Theorem C27_empty ft : all_off (fl_targets (match empty_flavor ft with Flavor c _ => c end)).
Proof. repeat split. Qed.
Print Assumptions C27_empty.
Example C27_ex : let f := mk_fcore [] (fl_method x_core) (mk_switch false false false) ["Err"] ["Ok"] ["Result"] true [] in
  expands x_env f x_main (out_of x_env f x_main) /\ all_off (fl_targets f) /\ out_of x_env f x_main <> x_main /\
  (forall s tr, In s (item_sites [] x_main) -> trail (ev_attr x_env) (s_frames s) tr -> unset (last_of ev_targets) tr).
Proof.
  split; [eexists; vm_compute; reflexivity|]. split; [repeat split|]. split; [discriminate|]. intros s tr Hi Ht.
  cbn in Hi. repeat destruct Hi as [<-|Hi]; try contradiction; cbn [s_frames] in Ht;
    (match type of Ht with trail _ ?fr _ => eassert (H0 : trail (ev_attr x_env) fr _) by t_trail end); rewrite (trail_unique _ _ _ _ Ht H0); clear;
    intros es Hi; cbn in Hi; repeat destruct Hi as [Hi|Hi]; try discriminate; try contradiction; inversion Hi; reflexivity.
Qed.
