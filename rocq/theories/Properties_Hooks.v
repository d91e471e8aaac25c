(** Properties of the hook of a position: C01, C02, C03, C13, C39, C40, C41, C43.

    [item_sites [] it] lists the positions of an item where a hook can go (SiteSpec.v); [position it out s s'] says that
    [s'] is what became of position [s] of the source; [trail] reads the attributes of the nodes that enclose it
    (SettingSpec.v), innermost first. *)
From Coq Require Import String Ascii Bool Arith Lia List.
From Verif Require Import Base Tokens Method Paths Context Flavor Attrs Syntax Render Walker RootAttr RenderSpec AttrSpec SiteSpec ProgSpec BareProofs AccountProofs SettingSpec WalkSpec WalkProofs TextSpec ShapeProofs HookProofs FnNameProofs MethodSpec MethodProofs Properties_Attrs WalkExamples.
Import ListNotations.
Open Scope string_scope.
Open Scope list_scope.

(** * C01: the [?] hook rule *)
(** every [?] of the source is a position, in order *)
Theorem C01_positions it : source it ->
  map s_whole (filter (fun s => match s_kind s with KTry => true | _ => false end) (item_sites [] it)) =
  filter (fun e => match e with ETry _ _ _ => true | _ => false end) (item_subs it).
Proof. exact (try_positions it). Qed.
Print Assumptions C01_positions.
(** every position is found again in the output, every hook of the output belongs to one of them *)
Theorem C01_images E f it out s : expands E f it out -> source it -> In s (item_sites [] it) -> exists s', position it out s s' /\ s_kind s' = s_kind s.
Proof. intros H Hs Hi. destruct (position_total E f it out s H Hs Hi) as (s' & Hp). exists s'. split; [exact Hp|]. eapply position_kind; eassumption. Qed.
Print Assumptions C01_images.
Theorem C01_all_hooks E f it out : expands E f it out -> source it ->
  hooks_of (item_subs out) = flat_map (fun s => match s_hook s with Some (h, _) => [h] | None => [] end) (item_sites [] out).
Proof. intros (n & H) Hs. destruct (acc_all E) as (_ & _ & HY & _). symmetry. eapply acc_hooks, HY; eassumption. Qed.
Print Assumptions C01_all_hooks.
(** with what they replace *)
Theorem C01_all_hook_nodes E f it out : expands E f it out -> source it ->
  filter (fun e => match e with EHook _ _ _ => true | _ => false end) (item_subs out) =
  flat_map (fun s => match s_hook s with Some (h, r) => [EHook h (s_target s) r] | None => [] end) (item_sites [] out).
Proof. intros (n & H) Hs. destruct (acc_all E) as (_ & _ & HY & _). symmetry. eapply HY; eassumption. Qed.
Print Assumptions C01_all_hook_nodes.
(** reached or not *)
Theorem C01_reached E f it out s s' : expands E f it out -> source it -> position it out s s' ->
  (exists tr, trail (ev_attr E) (s_frames s) tr /\ reached f tr = true) \/ (unreached (ev_attr E) f (s_frames s) /\ ~ hooked s').
Proof.
  intros H Hs Hp. destruct (position_cases E f it out s s' H Hs Hp) as [Hr|Hu]; [left; exact Hr|right]. split; [exact Hu|].
  unfold hooked. rewrite (position_unreached E f it out s s' H Hs Hp Hu). tauto.
Qed.
Print Assumptions C01_reached.
Theorem C01_question E f it out s s' tr :
  expands E f it out -> source it -> position it out s s' -> s_kind s = KTry -> trail (ev_attr E) (s_frames s) tr ->
  (hooked s' <-> reached f tr = true /\ skipped tr = false /\ sw_question (the_targets f tr) = true).
Proof. intros H Hs Hp Hk Ht. rewrite (position_rule_source E f it out s s' H Hs Hp tr Ht (or_introl Hk)), Hk. reflexivity. Qed.
Print Assumptions C01_question.
(** one hook, of that kind *)
Theorem C01_one E f it out s s' h r : expands E f it out -> source it -> position it out s s' -> s_kind s = KTry -> s_hook s' = Some (h, r) ->
  h_kind h = Question /\ forall h' o r', s_target s' = EHook h' o r' -> h_kind h' <> Question \/ h_consumed h' <> None.
Proof.
  intros H Hs Hp Hk Hh. destruct (hook_trail E f it out s s' H Hs Hp h r Hh) as (tr & Ht & _). destruct (hook_made E f it out s s' H Hs Hp tr h r Ht Hh) as [Hkind _ _ _ _ _].
  rewrite Hk in Hkind. split; [exact Hkind|]. intros h' o r' Ho. pose proof (hooked_once E f it out s s' H Hs Hp Question) as Hn. rewrite Ho in Hn. cbn [hook_on] in Hn.
  unfold own in Hn. destruct (h_kind h'), (h_consumed h'); try (left; discriminate); try (right; discriminate); discriminate.
Qed.
Print Assumptions C01_one.
(** the settings it was made with *)
Theorem C01_settings E f it out s s' tr h r :
  expands E f it out -> source it -> position it out s s' -> trail (ev_attr E) (s_frames s) tr -> s_hook s' = Some (h, r) ->
  fval (cx_method (h_ctx h)) = the_method f tr /\ (forall x, mget x (fval (cx_bindings (h_ctx h))) = the_binding f x tr) /\
  get_fn_name (h_ctx h) = fn_name tr /\ get_fn_sig (ev_str E) (h_ctx h) = match fn_sig tr with Some ts => ev_str E ts | None => "<unknown>" end.
Proof.
  intros H Hs Hp Ht Hh. destruct (hook_made E f it out s s' H Hs Hp tr h r Ht Hh) as [_ He _ _ _ _].
  split; [apply (ie_method _ _ _ He)|]. split; [apply (ie_bindings _ _ _ He)|]. split; [apply (ie_name _ _ _ He)|].
  unfold get_fn_sig. rewrite <- (ie_sig _ _ _ He). destruct (fval (cx_fn (h_ctx h))); reflexivity.
Qed.
Print Assumptions C01_settings.
(** the text: the target, the method in effect with its variables replaced *)
Theorem C01_text E f it out s s' tr h r :
  expands E f it out -> source it -> position it out s s' -> NoDup (keys (fl_bindings f)) -> trail (ev_attr E) (s_frames s) tr ->
  s_hook s' = Some (h, r) ->
  exists ts, hook_text (ev_str E) f tr (kind_of (s_kind s)) (h_count h) (etoks (without_own_hooq (s_whole s))) (etoks (s_target s')) (h_span h) ts /\
             ev_parse E ts = Some r.
Proof. intros H Hs Hp. exact (position_text E f it out s s' H Hs Hp tr h r). Qed.
Print Assumptions C01_text.

(** the third [?] of the example is in a block in the fourth one, which is skipped *)
Definition summary (it : item) : list (site_kind * option nat) := map (fun s => (s_kind s, option_map (fun p => h_count (fst p)) (s_hook s))) (item_sites [] it).
Example C01_ex_hooks : summary x_out =
  [(KTry, Some 1); (KTry, Some 2); (KTry, Some 3); (KTry, None); (KTry, Some 4); (KTry, Some 5); (KTail true, None); (KTry, Some 6);
   (KReturn, Some 1); (KTry, Some 7); (KTail true, None)].
Proof. vm_compute. reflexivity. Qed.
Example C01_ex : expands x_env x_core x_main x_out /\ source x_main /\
  (exists tr, position x_main x_out (site_of x_main 2) (site_of x_out 2) /\ s_kind (site_of x_main 2) = KTry /\
     trail (ev_attr x_env) (s_frames (site_of x_main 2)) tr /\ reached x_core tr = true /\ skipped tr = false /\ length tr = 8) /\
  (exists tr, position x_main x_out (site_of x_main 3) (site_of x_out 3) /\
     trail (ev_attr x_env) (s_frames (site_of x_main 3)) tr /\ reached x_core tr = true /\ skipped tr = true).
Proof.
  split; [exact x_expands|]. split; [exact x_source|]. split; eexists.
  - split; [t_position 2|]. split; [reflexivity|]. split; [cbn; t_trail|]. repeat split.
  - split; [t_position 3|]. split; [cbn; t_trail|]. repeat split.
Qed.
(** [e()?] in the [let] with [#[hooq::method(.warn($k))]] *)
Example C01_ex_text : exists tr h r,
  trail (ev_attr x_env) (s_frames (site_of x_main 4)) tr /\ s_hook (site_of x_out 4) = Some (h, r) /\
  NoDup (keys (fl_bindings x_core)) /\
  nospan (etoks r) = nospan (etoks (x_call "e" []) ++ [qp "."; qi "warn"; qg Parenth [qi "v"]]).
Proof.
  eexists _, _, _. split; [cbn; t_trail|]. split; [reflexivity|].
  split; [repeat constructor; simpl; tauto|]. vm_compute. reflexivity.
Qed.
(** the left side of an assignment is not reached: [a()?[0] = b()?] *)
Example C01_ex_unreached : let it := x_fn [] "main" RetNone [semi (EAssign [] (EIndex [] (x_try (x_call "a" [])) call_site (ELit [] (LUsize 0) call_site)) [qp "="] (x_try (x_call "b" [])))] in
  expands x_env x_core it (out_of x_env x_core it) /\ unreached (ev_attr x_env) x_core (s_frames (site_of it 0)) /\
  summary (out_of x_env x_core it) = [(KTry, None); (KTry, Some 1)].
Proof. split; [eexists; vm_compute; reflexivity|]. split; [left; cbn; tauto|]. reflexivity. Qed.

(** * C02: the [return] hook rule *)
Theorem C02_positions it : source it ->
  map s_whole (filter (fun s => match s_kind s with KReturn => true | _ => false end) (item_sites [] it)) =
  filter (fun e => match e with EReturn _ _ (Some _) => true | _ => false end) (item_subs it).
Proof. exact (return_positions it). Qed.
Print Assumptions C02_positions.
(** Full statement: as below for every value [s_target s].  Missing: a value [e?] or [(e?)(..)] when a method ending in [!] is in use, see
    [C02_return_refuted]: the rule then looks at what the [?] was replaced by ([C02_return_seen]). *)
Theorem C02_return_partial E f it out s s' tr :
  expands E f it out -> source it -> position it out s s' -> s_kind s = KReturn -> trail (ev_attr E) (s_frames s) tr -> keeps_form E f (s_target s) ->
  (hooked s' <-> reached f tr = true /\ skipped tr = false /\ sw_return (the_targets f tr) = true /\
                 (calls (s_target s) (the_tails f tr) \/
                  (exists p, returns tr = Some (RetPath p) /\ ends_in p (the_results f tr)) /\ ~ calls (s_target s) (the_ignores f tr))).
Proof. intros H Hs Hp Hk Ht Hf. rewrite (position_rule_source E f it out s s' H Hs Hp tr Ht (or_intror Hf)), Hk. reflexivity. Qed.
Print Assumptions C02_return_partial.
(** without the feature consume-question, every value: the flavors then have no method ending in [!] *)
Theorem C02_return_default E f it out s s' tr :
  ae_consume (ev_attr E) = false -> m_exc (fl_method f) = false -> (forall l g, ae_flavor (ev_attr E) l = Ok g -> m_exc (fl_method g) = false) ->
  expands E f it out -> source it -> position it out s s' -> s_kind s = KReturn -> trail (ev_attr E) (s_frames s) tr ->
  (hooked s' <-> reached f tr = true /\ skipped tr = false /\ sw_return (the_targets f tr) = true /\
                 (calls (s_target s) (the_tails f tr) \/
                  (exists p, returns tr = Some (RetPath p) /\ ends_in p (the_results f tr)) /\ ~ calls (s_target s) (the_ignores f tr))).
Proof. intros H1 H2 H3 H Hs Hp Hk Ht. apply (C02_return_partial E f it out s s' tr H Hs Hp Hk Ht). right. split; [exact H1|]. split; [exact H2|exact H3]. Qed.
Print Assumptions C02_return_default.
(** every value, as it is when the rule is applied *)
Theorem C02_return_seen E f it out s s' tr :
  expands E f it out -> source it -> position it out s s' -> s_kind s = KReturn -> trail (ev_attr E) (s_frames s) tr ->
  (hooked s' <-> reached f tr = true /\ return_rule f tr (visible (s_target s'))).
Proof. intros H Hs Hp Hk Ht. rewrite (position_rule E f it out s s' H Hs Hp tr Ht), Hk. reflexivity. Qed.
Print Assumptions C02_return_seen.
(** [return a()?] in a function without return type, the [?] replaced by [Err()]: hooked *)
Theorem C02_return_refuted : exists E f it out s s' tr,
  expands E f it out /\ source it /\ position it out s s' /\ s_kind s = KReturn /\ trail (ev_attr E) (s_frames s) tr /\
  hooked s' /\ ~ return_rule f tr (s_target s).
Proof.
  exists xd_env, xd_core, xd_main, xd_out, (site_of xd_main 1), (site_of xd_out 1). eexists. split; [exact xd_expands|]. split; [reflexivity|].
  split; [t_position 1|]. split; [reflexivity|]. split; [cbn; t_trail|]. split; [discriminate|].
  intros (_ & _ & [Hc|[(p & Hr & _) _]]); [|discriminate]. destruct Hc as (a & a2 & p & sp & es & cs & H & _). discriminate.
Qed.
Print Assumptions C02_return_refuted.
(** [return Err(1);] of the example is hooked by its name, [return Ok(1)] and [return x] in a function returning [()] are not *)
Example C02_ex : exists tr, position x_main x_out (site_of x_main 8) (site_of x_out 8) /\ s_kind (site_of x_main 8) = KReturn /\
  trail (ev_attr x_env) (s_frames (site_of x_main 8)) tr /\ keeps_form x_env x_core (s_target (site_of x_main 8)) /\ hooked (site_of x_out 8) /\
  fallible x_core tr /\ calls (s_target (site_of x_main 8)) (the_tails x_core tr).
Proof.
  eexists. split; [t_position 8|]. split; [reflexivity|]. split; [cbn; t_trail|]. split; [left; reflexivity|]. split; [discriminate|]. split.
  - eexists. split; [reflexivity|]. exists [xa_seg "std"], (xa_seg "Result"). split; [reflexivity|cbn; tauto].
  - do 6 eexists. split; [reflexivity|]. exists [], (xa_seg "Err"). split; [reflexivity|cbn; tauto].
Qed.
Example C02_ex_not : summary (out_of x_env x_core (x_fn [] "f" x_result [semi (x_ret (x_call "Ok" [])); semi (x_ret (x_name "v")); semi (EReturn [] call_site None)])) =
    [(KReturn, None); (KReturn, Some 1)] /\
  summary (out_of x_env x_core (x_fn [] "f" RetNone [semi (x_ret (x_call "Ok" [])); semi (x_ret (x_name "v")); semi (x_ret (x_call "Err" []))])) =
    [(KReturn, None); (KReturn, None); (KReturn, Some 1)].
Proof. split; vm_compute; reflexivity. Qed.

(** * C03: the tail expression hook rule *)
(** Full statement and what is missing: as for C02. *)
Theorem C03_tail_partial E f it out s s' tr fn :
  expands E f it out -> source it -> position it out s s' -> s_kind s = KTail fn -> trail (ev_attr E) (s_frames s) tr -> keeps_form E f (s_target s) ->
  (hooked s' <-> reached f tr = true /\ skipped tr = false /\ sw_tail (the_targets f tr) = true /\
                 (calls (s_target s) (the_tails f tr) \/
                  fn = true /\ (exists p, returns tr = Some (RetPath p) /\ ends_in p (the_results f tr)) /\ ~ calls (s_target s) (the_ignores f tr))).
Proof. intros H Hs Hp Hk Ht Hf. rewrite (position_rule_source E f it out s s' H Hs Hp tr Ht (or_intror Hf)), Hk. reflexivity. Qed.
Print Assumptions C03_tail_partial.
Theorem C03_tail_default E f it out s s' tr fn :
  ae_consume (ev_attr E) = false -> m_exc (fl_method f) = false -> (forall l g, ae_flavor (ev_attr E) l = Ok g -> m_exc (fl_method g) = false) ->
  expands E f it out -> source it -> position it out s s' -> s_kind s = KTail fn -> trail (ev_attr E) (s_frames s) tr ->
  (hooked s' <-> reached f tr = true /\ skipped tr = false /\ sw_tail (the_targets f tr) = true /\
                 (calls (s_target s) (the_tails f tr) \/
                  fn = true /\ (exists p, returns tr = Some (RetPath p) /\ ends_in p (the_results f tr)) /\ ~ calls (s_target s) (the_ignores f tr))).
Proof. intros H1 H2 H3 H Hs Hp Hk Ht. apply (C03_tail_partial E f it out s s' tr fn H Hs Hp Hk Ht). right. split; [exact H1|]. split; [exact H2|exact H3]. Qed.
Print Assumptions C03_tail_default.
Theorem C03_tail_seen E f it out s s' tr fn :
  expands E f it out -> source it -> position it out s s' -> s_kind s = KTail fn -> trail (ev_attr E) (s_frames s) tr ->
  (hooked s' <-> reached f tr = true /\ tail_rule f tr fn (visible (s_target s'))).
Proof. intros H Hs Hp Hk Ht. rewrite (position_rule E f it out s s' H Hs Hp tr Ht), Hk. reflexivity. Qed.
Print Assumptions C03_tail_seen.
Theorem C03_tail_refuted : exists E f it out s s' tr fn,
  expands E f it out /\ source it /\ position it out s s' /\ s_kind s = KTail fn /\ trail (ev_attr E) (s_frames s) tr /\
  hooked s' /\ ~ tail_rule f tr fn (s_target s).
Proof.
  exists xd_env, xd_core, xd_main, xd_out, (site_of xd_main 3), (site_of xd_out 3). eexists _, true. split; [exact xd_expands|]. split; [reflexivity|].
  split; [t_position 3|]. split; [reflexivity|]. split; [cbn; t_trail|]. split; [discriminate|].
  intros (_ & _ & [Hc|(_ & (p & Hr & _) & _)]); [|discriminate]. destruct Hc as (a & a2 & p & sp & es & cs & H & _). discriminate.
Qed.
Print Assumptions C03_tail_refuted.
(** the tail [Ok(i()?)] is not hooked; [v] would be; in a block that is no function body only [Err(..)] is *)
Example C03_ex : exists tr, position x_main x_out (site_of x_main 10) (site_of x_out 10) /\ s_kind (site_of x_main 10) = KTail true /\
  trail (ev_attr x_env) (s_frames (site_of x_main 10)) tr /\ keeps_form x_env x_core (s_target (site_of x_main 10)) /\
  calls (s_target (site_of x_main 10)) (the_ignores x_core tr) /\ fallible x_core tr.
Proof.
  eexists. split; [t_position 10|]. split; [reflexivity|]. split; [cbn; t_trail|]. split; [left; reflexivity|]. split.
  - do 6 eexists. split; [reflexivity|]. exists [], (xa_seg "Ok"). split; [reflexivity|cbn; tauto].
  - eexists. split; [reflexivity|]. exists [xa_seg "std"], (xa_seg "Result"). split; [reflexivity|cbn; tauto].
Qed.
Example C03_ex_blocks : summary (out_of x_env x_core (x_fn [] "f" x_result
    [x_let [] "a" (x_block [] [tail (x_call "Err" [])]); x_let [] "b" (x_block [] [tail (x_name "v")]);
     x_let [] "c" (x_closure x_result (x_block [] [semi (x_call "Err" []); tail (x_name "v")])); x_let [] "d" (x_closure RetNone (x_name "v"));
     tail (EMatch [] [qi "match"] (x_name "x") call_site [Arm [] [qp "_"] [] None [qp "="; qp ">"] (x_call "Err" []) []; Arm [] [qp "_"] [] None [qp "="; qp ">"] (x_name "v") []])])) =
  [(KTail false, Some 1); (KTail false, None); (KTail true, Some 2); (KTail true, None); (KTail false, Some 3); (KTail false, None); (KTail true, Some 4)].
Proof. vm_compute. reflexivity. Qed.

(** * C13: [$source] and [$expr] *)
(** [$source] is the target as it stood in the source, without its own hooq attributes; [$expr] is the target in the output *)
Theorem C13_source E f it out s s' tr h r :
  expands E f it out -> source it -> position it out s s' -> NoDup (keys (fl_bindings f)) -> trail (ev_attr E) (s_frames s) tr ->
  s_hook s' = Some (h, r) ->
  exists src ets ts, hook_text (ev_str E) f tr (kind_of (s_kind s)) (h_count h) src ets (h_span h) ts /\ ev_parse E ts = Some r /\
    (forall v, var_at (ev_str E) f tr (kind_of (s_kind s)) (h_count h) src ets (h_span h) "source" v <-> v = etoks (without_own_hooq (s_whole s))) /\
    (forall v, var_at (ev_str E) f tr (kind_of (s_kind s)) (h_count h) src ets (h_span h) "expr" v <-> v = etoks (s_target s')).
Proof.
  intros H Hs Hp Hn Ht Hh. destruct (C01_text E f it out s s' tr h r H Hs Hp Hn Ht Hh) as (ts & Hx & Hr). eexists _, _, ts. split; [exact Hx|]. split; [exact Hr|].
  split; intros v; (split; [intros Hv; inversion Hv; subst; try reflexivity; exfalso; simpl in *; intuition congruence|intros ->; constructor]).
Qed.
Print Assumptions C13_source.
(** the target as written has no hooks; in the output it is the same but for the hooks in it *)
Theorem C13_no_hooks E f it out s s' :
  expands E f it out -> source it -> position it out s s' -> written (subs (s_whole s)) /\ bare (s_target s') = bare (s_target s).
Proof.
  intros H Hs Hp. split; [apply (position_shaped it out s s' Hs Hp)|]. exact (target_bare E f it out s s' H Hs Hp).
Qed.
Print Assumptions C13_no_hooks.
(** the target of a [?] or [return] is its operand *)
Theorem C13_whole it s : source it -> In s (item_sites [] it) ->
  match s_kind s with
  | KTry => exists a, s_whole s = ETry a (s_target s) (s_span s)
  | KReturn => exists a, s_whole s = EReturn a (s_span s) (Some (s_target s))
  | KTail _ => s_whole s = s_target s
  end.
Proof. intros Hs Hi. destruct (item_shaped it s Hs Hi) as [H _]. destruct (s_kind s); [destruct H as (a & fr & H & _)|destruct H as (a & fr & H & _)|apply H]; eauto. Qed.
Print Assumptions C13_whole.
(** [#[hooq::tail_expr_idents("Err")] a(b()?)?] with the method [$source; $expr] *)
Example C13_ex : let m := Replace [qg Brace [qp "$"; qi "source"; qp ";"; qp "$"; qi "expr"]] false in
  let it := x_fn [] "main" RetNone [semi (x_try_a [xa_list "tail_expr_idents" ["Err"]] (x_call "a" [x_try (x_call "b" [])]))] in
  let f := mk_fcore [] m (mk_switch true true true) [] [] [] true [] in
  exists r h, s_hook (site_of (out_of x_env f it) 1) = Some (h, EVerbatim r) /\
    nospan r = nospan [qg Brace (etoks (x_try (x_call "a" [x_try (x_call "b" [])])) ++ qp ";" :: etoks (x_call "a" [x_try (EVerbatim [qg Brace (etoks (x_try (x_call "b" [])) ++ qp ";" :: etoks (x_call "b" []))])]))].
Proof. do 2 eexists. split; [vm_compute; reflexivity|]. vm_compute. reflexivity. Qed.

(** * C39: [$fn_name] and [$fn_sig] *)
(** the nearest function or closure, then the nearest function around it; [no_callable]: neither of them, [no_fn]: no function *)
Theorem C39_fn E f it out s s' h r tr pre g post :
  expands E f it out -> source it -> position it out s s' -> s_hook s' = Some (h, r) -> trail (ev_attr E) (s_frames s) tr ->
  tr = pre ++ SFn g :: post -> no_callable pre ->
  get_fn_name (h_ctx h) = sg_name g /\ get_fn_sig (ev_str E) (h_ctx h) = ev_str E (sg_toks g).
Proof.
  intros H Hs Hp Hh Ht -> Hn. destruct (C01_settings E f it out s s' _ h r H Hs Hp Ht Hh) as (_ & _ & H1 & H2).
  rewrite H1, H2, (name_skip _ _ Hn), (sig_skip _ _ Hn). split; reflexivity.
Qed.
Print Assumptions C39_fn.
Theorem C39_closure E f it out s s' h r tr pre a hd o mid g post :
  expands E f it out -> source it -> position it out s s' -> s_hook s' = Some (h, r) -> trail (ev_attr E) (s_frames s) tr ->
  tr = pre ++ SClosure a hd o :: mid ++ SFn g :: post -> no_callable pre -> no_fn mid ->
  get_fn_name (h_ctx h) = ("__closure_in_" ++ sg_name g ++ "__")%string /\
  get_fn_sig (ev_str E) (h_ctx h) = ev_str E (outer_toks (foreign a) ++ hd ++ [TGroup Brace [] call_site]).
Proof.
  intros H Hs Hp Hh Ht -> Hn Hm. destruct (C01_settings E f it out s s' _ h r H Hs Hp Ht Hh) as (_ & _ & H1 & H2).
  rewrite H1, H2, (name_skip _ _ Hn), (sig_skip _ _ Hn). cbn [fn_name fn_sig]. rewrite (nearest_skip _ _ Hm). split; reflexivity.
Qed.
Print Assumptions C39_closure.
Theorem C39_outside E f it out s s' h r tr :
  expands E f it out -> source it -> position it out s s' -> s_hook s' = Some (h, r) -> trail (ev_attr E) (s_frames s) tr -> no_callable tr ->
  get_fn_name (h_ctx h) = "<unknown>" /\ get_fn_sig (ev_str E) (h_ctx h) = "<unknown>".
Proof.
  intros H Hs Hp Hh Ht Hn. destruct (C01_settings E f it out s s' _ h r H Hs Hp Ht Hh) as (_ & _ & H1 & H2).
  rewrite H1, H2, <- (app_nil_r tr), (name_skip _ _ Hn), (sig_skip _ _ Hn). split; reflexivity.
Qed.
Print Assumptions C39_outside.
Theorem C39_closure_outside E f it out s s' h r tr pre a hd o post :
  expands E f it out -> source it -> position it out s s' -> s_hook s' = Some (h, r) -> trail (ev_attr E) (s_frames s) tr ->
  tr = pre ++ SClosure a hd o :: post -> no_callable pre -> no_fn post -> get_fn_name (h_ctx h) = "__closure_in_<unknown>__".
Proof.
  intros H Hs Hp Hh Ht -> Hn Hm. destruct (C01_settings E f it out s s' _ h r H Hs Hp Ht Hh) as (_ & _ & H1 & _).
  rewrite H1, (name_skip _ _ Hn). cbn [fn_name]. rewrite (nearest_none _ Hm). reflexivity.
Qed.
Print Assumptions C39_closure_outside.
(** these are the names the hook prints, when its text uses them *)
Theorem C39_text ts_str f tr k n src ets q v :
  (var_at ts_str f tr k n src ets q "fn_name" v -> v = str_lit (fn_name tr)) /\
  (var_at ts_str f tr k n src ets q "fn_sig" v -> v = str_lit (match fn_sig tr with Some ts => ts_str ts | None => "<unknown>" end)).
Proof. split; intros Hv; inversion Hv; subst; try reflexivity; exfalso; simpl in *; intuition congruence. Qed.
Print Assumptions C39_text.
(** fn main() { fn inner() { || { || a()? } } }, const C = (|| b()?, c()?) *)
Definition names_of (it : item) : list (option string) :=
  map (fun s => option_map (fun p => get_fn_name (h_ctx (fst p))) (s_hook s)) (filter (fun s => match s_kind s with KTry => true | _ => false end) (item_sites [] it)).
Example C39_ex :
  names_of (out_of x_env x_core (x_fn [] "main" RetNone
    [SItem (x_fn [] "inner" RetNone [semi (x_closure RetNone (x_block [] [tail (x_closure RetNone (x_try (x_call "a" [])))]))]); semi (x_try (x_call "d" []))])) =
    [Some "__closure_in_inner__"; Some "main"] /\
  names_of (out_of x_env x_core (IConst [] [qi "const"; qi "C"; qp "="] (ETuple [] call_site [x_closure RetNone (x_try (x_call "b" [])); x_try (x_call "c" [])] [qp ","]) [qp ";"])) =
    [Some "__closure_in_<unknown>__"; Some "<unknown>"].
Proof. split; vm_compute; reflexivity. Qed.
Example C39_ex_hyps : let it := x_fn [] "main" RetNone [semi (x_closure RetNone (x_block [] [tail (x_closure RetNone (x_try (x_call "a" [])))]))] in
  exists tr pre a hd o mid g post, trail (ev_attr x_env) (s_frames (site_of it 0)) tr /\ tr = pre ++ SClosure a hd o :: mid ++ SFn g :: post /\
    no_callable pre /\ no_fn mid /\ 2 <= length (filter (fun x => match x with SClosure _ _ _ => true | _ => false end) tr).
Proof.
  eexists _, [SNode []], _, _, _, [SNode []; SScope; SNode []; SClosure _ _ _; SNode []; SScope], _, _. split; [cbn; t_trail|]. split; [reflexivity|]. split; [|split].
  - intros x Hx. cbn in Hx. split; intros Hf; [destruct Hf as (? & ->)|destruct Hf as (? & ? & ? & ->)]; intuition discriminate.
  - intros x Hx (? & ->). cbn in Hx. intuition discriminate.
  - cbn. lia.
Qed.

(** * C40: a hook applies to the whole target *)
(** A [.m()] after some tokens is applied to the longest suffix of them that is one operand: an identifier, literal or group, followed by
    [.x], [(..)], [[..]], [?], [!(..)] and [::x]. *)
Definition keywords := ["return"; "break"; "yield"; "as"; "in"; "let"; "mut"; "if"; "match"; "while"; "for"; "loop"; "unsafe"; "async"; "move"; "const"; "box"].
Fixpoint suffixes_ok (ts : list tt) : bool :=
  match ts with
  | [] => true
  | TGroup Parenth _ _ :: r | TGroup Bracket _ _ :: r | TPunct "?" _ :: r => suffixes_ok r
  | TPunct "." _ :: TIdent _ _ :: r | TPunct "." _ :: TLit _ _ :: r | TPunct "!" _ :: TGroup _ _ _ :: r | TPunct ":" _ :: TPunct ":" _ :: TIdent _ _ :: r => suffixes_ok r
  | _ => false
  end.
Definition operand (ts : list tt) : bool :=
  match ts with
  | TIdent x _ :: r => negb (existsb (String.eqb x) keywords) && suffixes_ok r
  | TLit _ _ :: r | TGroup _ _ _ :: r => suffixes_ok r
  | _ => false
  end.
Definition receives (ts recv : list tt) : Prop :=
  (exists pre, ts = pre ++ recv) /\ operand recv = true /\ forall pre l, ts = pre ++ l -> operand l = true -> length l <= length recv.
(** Full statement: without the hypothesis on the target.  Missing: targets that are no single operand, see [C40_whole_refuted]. *)
Theorem C40_whole_partial E f it out s s' tr h r dot t b :
  expands E f it out -> source it -> position it out s s' -> NoDup (keys (fl_bindings f)) -> trail (ev_attr E) (s_frames s) tr ->
  s_hook s' = Some (h, r) -> the_method f tr = Insert dot t b ->
  operand (etoks (s_target s')) = true ->
  exists m, ev_parse E (etoks (s_target s') ++ TPunct "." dot :: m) = Some r /\
            method_text (ev_str E) f tr (kind_of (s_kind s)) (h_count h) (etoks (without_own_hooq (s_whole s))) (etoks (s_target s')) (h_span h) m /\
            receives (etoks (s_target s')) (etoks (s_target s')).
Proof.
  intros H Hs Hp Hn Ht Hh Hm Ho. destruct (C01_text E f it out s s' tr h r H Hs Hp Hn Ht Hh) as (ts & Hx & Hr).
  destruct Hx as [dot' ts' b' m Hm' Hx|ts' b' m Hm' Hx]; [|congruence]. assert (dot' = dot) by congruence. subst dot'. exists m. split; [exact Hr|]. split; [exact Hx|].
  split; [exists []; reflexivity|]. split; [exact Ho|]. intros pre l Hl _. apply (f_equal (@length tt)) in Hl. rewrite app_length in Hl. lia.
Qed.
Print Assumptions C40_whole_partial.
(** [return a + b] becomes [return a + b.log()]: the receiver is [b] *)
Theorem C40_whole_refuted : exists E f it out s s' tr h r dot t b m recv,
  expands E f it out /\ source it /\ position it out s s' /\ trail (ev_attr E) (s_frames s) tr /\ s_hook s' = Some (h, r) /\ the_method f tr = Insert dot t b /\
  etoks r = etoks (s_target s') ++ TPunct "." dot :: m /\ receives (etoks (s_target s')) recv /\ recv <> etoks (s_target s').
Proof.
  exists x_env, x_core, xp_main, xp_out, (site_of xp_main 0), (site_of xp_out 0). eexists _, _, _, _, _, _, _, [TIdent "b" call_site].
  split; [exact xp_expands|]. split; [reflexivity|]. split; [t_position 0|]. split; [cbn; t_trail|]. split; [reflexivity|]. split; [reflexivity|]. split; [reflexivity|]. split.
  - split; [exists [qi "a"; qp "+"]; reflexivity|]. split; [reflexivity|]. intros pre l Hl Ho.
    assert (Hk : l = skipn (length pre) (etoks (s_target (site_of xp_out 0)))) by (rewrite Hl; rewrite skipn_app, skipn_all, Nat.sub_diag; reflexivity).
    clear Hl. subst l. destruct (length pre) as [|[|n]]; [discriminate Ho|discriminate Ho|]. rewrite skipn_length. change (3 - S (S n) <= 1). lia.
  - discriminate.
Qed.
Print Assumptions C40_whole_refuted.
Example C40_ex : exists tr h r dot t b,
  trail (ev_attr x_env) (s_frames (site_of x_main 1)) tr /\
  s_hook (site_of x_out 1) = Some (h, r) /\ the_method x_core tr = Insert dot t b /\ operand (etoks (s_target (site_of x_out 1))) = true /\ length (etoks (s_target (site_of x_out 1))) = 2.
Proof.
  do 6 eexists. split; [cbn; t_trail|].
  split; [reflexivity|]. split; [reflexivity|]. split; reflexivity.
Qed.

(** * C41: consume-question *)
(** a [?] goes iff it is hooked with a method ending in [!] *)
Theorem C41_consumed E f it out s s' tr :
  expands E f it out -> source it -> position it out s s' -> trail (ev_attr E) (s_frames s) tr ->
  (consumed s' = true <-> s_kind s = KTry /\ hooked s' /\ m_exc (the_method f tr) = true).
Proof.
  intros H Hs Hp Ht. unfold consumed, hooked. destruct (s_hook s') as [[h r]|] eqn:Hh; [|split; [discriminate|intros (_ & Hn & _); now destruct Hn]].
  destruct (hook_made E f it out s s' H Hs Hp tr h r Ht Hh) as [_ _ _ _ Hc _]. rewrite Hc.
  destruct (s_kind s), (m_exc (the_method f tr)); split; try discriminate; try (intros (? & ? & ?); discriminate); repeat split; try discriminate.
Qed.
Print Assumptions C41_consumed.
(** the [?] of the output are the others, in order *)
Theorem C41_left E f it out : expands E f it out -> source it ->
  filter (fun e => match e with ETry _ _ _ => true | _ => false end) (item_subs out) =
  map s_whole (filter (fun s => match s_kind s with KTry => negb (consumed s) | _ => false end) (item_sites [] out)).
Proof. intros _ _. destruct lefts_all as (_ & _ & HL & _). symmetry. exact (HL out []). Qed.
Print Assumptions C41_left.
(** which methods end in [!]: only with the feature *)
Theorem C41_bang b ts : m_exc (parse_method b ts) = true <-> b = true /\ exists l sp, ts = l ++ [TPunct "!" sp].
Proof. exact (parse_method_bang b ts). Qed.
Print Assumptions C41_bang.
(** what a method is made of: the dot, the template without the [!] *)
Theorem C41_method b ts m : method_of b ts m <-> m = parse_method b ts.
Proof. exact (parse_method_spec b ts m). Qed.
Print Assumptions C41_method.
(** without the feature none goes *)
Theorem C41_default E f it out :
  ae_consume (ev_attr E) = false -> m_exc (fl_method f) = false -> (forall l g, ae_flavor (ev_attr E) l = Ok g -> m_exc (fl_method g) = false) ->
  expands E f it out -> source it ->
  length (filter (fun e => match e with ETry _ _ _ => true | _ => false end) (item_subs out)) =
  length (filter (fun e => match e with ETry _ _ _ => true | _ => false end) (item_subs it)).
Proof.
  intros H1 H2 H3 H Hs. rewrite (C41_left E f it out H Hs), <- (C01_positions it Hs), !map_length. apply filter_positions with (E := E) (f := f); auto.
  - intros s s' Hp. apply (position_kind E f it out s s' H Hs Hp).
  - intros s s' Hp. destruct (consumed s') eqn:Ec; [|reflexivity]. exfalso. unfold consumed in Ec. destruct (s_hook s') as [[h r]|] eqn:Hh; [|discriminate].
    destruct (hook_trail E f it out s s' H Hs Hp h r Hh) as (tr & Ht & _). assert (Hc : consumed s' = true) by (unfold consumed; rewrite Hh; exact Ec).
    apply (C41_consumed E f it out s s' tr H Hs Hp Ht) in Hc. destruct Hc as (_ & _ & Hc). rewrite (bang_trail _ _ _ _ (conj H1 (conj H2 H3)) Ht) in Hc. discriminate.
Qed.
Print Assumptions C41_default.
(** "all other attributes survive" fails: [#[allow(unused)] a()?] loses its attribute with the [?] *)
Theorem C41_attributes_refuted : exists E f it out x, expands E f it out /\ source it /\ mentions x (itoks it) = true /\ mentions x (itoks out) = false.
Proof. exists xc_env, xc_core, xc_main, xc_out, "allow". split; [exact xc_expands|]. split; [reflexivity|]. split; vm_compute; reflexivity. Qed.
Print Assumptions C41_attributes_refuted.
(** they survive unless the [?] goes: nothing but hooks and hooq attributes differs *)
Theorem C41_survive_partial E f it out : expands E f it out -> source it -> item_bare out = item_bare it.
Proof. intros (n & H) Hs. destruct (bare_all E) as (_ & _ & HB & _). eapply HB; eassumption. Qed.
Print Assumptions C41_survive_partial.
Example C41_ex : map consumed (item_sites [] xc_out) = [true; false] /\
  (exists tr, position xc_main xc_out (site_of xc_main 0) (site_of xc_out 0) /\ trail (ev_attr xc_env) (s_frames (site_of xc_main 0)) tr /\ m_exc (the_method xc_core tr) = true) /\
  length (filter is_try (item_subs xc_out)) = 1.
Proof. split; [reflexivity|]. split; [|reflexivity]. eexists. split; [t_position 0|]. split; [cbn; t_trail|reflexivity]. Qed.
Example C41_ex_default : ae_consume (ev_attr x_env) = false /\ m_exc (fl_method x_core) = false /\ (forall l g, ae_flavor (ev_attr x_env) l = Ok g -> m_exc (fl_method g) = false) /\
  length (filter is_try (item_subs x_main)) = 8.
Proof. split; [reflexivity|]. split; [reflexivity|]. split; [|reflexivity]. intros l g H. cbn in H. repeat match type of H with context [match ?y with _ => _ end] => destruct y end; inversion H; reflexivity. Qed.
Example C41_ex_method : method_of true [qp "."; qi "log"; qg Parenth []; qp "!"] (Insert call_site [qi "log"; qg Parenth []] true) /\
  method_of false [qi "log"; qp "!"] (Replace [qi "log"; qp "!"] false).
Proof. split; apply parse_method_spec; reflexivity. Qed.

(** * C43: at most one hook per value *)
(** Full statement: no value carries two hooks.  Proved: a position has one hook at most, what it is put on is not itself a hooked value, unless
    that value is a [?] that was removed.  Missing: positions that overlap, see the refutations. *)
Theorem C43_once_partial E f it out s s' h o r :
  expands E f it out -> source it -> position it out s s' -> s_target s' = EHook h o r -> h_consumed h <> None.
Proof.
  intros H Hs Hp Ht. pose proof (fun k => hooked_once E f it out s s' H Hs Hp k) as Hn. rewrite Ht in Hn. cbn [hook_on] in Hn.
  intros Hc. specialize (Hn (h_kind h)). unfold own in Hn. rewrite Hc in Hn. destruct (h_kind h); discriminate.
Qed.
Print Assumptions C43_once_partial.
(** [return Err(1)] as the tail of a function: [Err(1)] is hooked, and so is the [return] *)
Theorem C43_return_tail_refuted : exists E f it out s1 s1' s2 s2',
  expands E f it out /\ source it /\ position it out s1 s1' /\ position it out s2 s2' /\ s_kind s1 = KReturn /\ s_kind s2 = KTail true /\
  s_target s2 = s_whole s1 /\ hooked s1' /\ hooked s2'.
Proof.
  exists x_env, x_core, xr_main, xr_out, (site_of xr_main 0), (site_of xr_out 0), (site_of xr_main 1), (site_of xr_out 1).
  split; [exact xr_expands|]. split; [reflexivity|]. split; [t_position 0|]. split; [t_position 1|]. repeat split; discriminate.
Qed.
Print Assumptions C43_return_tail_refuted.
(** with consume-question, the tail [a()?] becomes [a().log().log()] *)
Theorem C43_consumed_tail_refuted : exists E f it out s2 s2' h r h1 o1 r1,
  expands E f it out /\ source it /\ position it out s2 s2' /\ s_kind s2 = KTail true /\ s_hook s2' = Some (h, r) /\ s_target s2' = EHook h1 o1 r1.
Proof.
  set (it := x_fn [] "main" x_result [tail (x_try (x_call "a" []))]).
  exists xc_env, xc_core, it, (out_of xc_env xc_core it), (site_of it 1), (site_of (out_of xc_env xc_core it) 1). do 5 eexists.
  split; [eexists; vm_compute; reflexivity|]. split; [reflexivity|]. split; [t_position 1|]. split; [reflexivity|]. split; vm_compute; reflexivity.
Qed.
Print Assumptions C43_consumed_tail_refuted.
Example C43_ex : summary x_out <> [] /\ Forall (fun s => match s_target s with EHook _ _ _ => False | _ => True end) (item_sites [] x_out) /\
  nospan (etoks (s_target (site_of (out_of xc_env xc_core (x_fn [] "main" x_result [tail (x_try (x_call "a" []))])) 1))) = nospan (etoks (x_call "a" []) ++ [qp "."; qi "log"; qg Parenth []]).
Proof. split; [discriminate|]. split; [vm_compute; repeat constructor|vm_compute; reflexivity]. Qed.
