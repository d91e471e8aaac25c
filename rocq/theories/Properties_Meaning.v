(** Property C51: hooks that only observe do not change what a program does.  *)
From Coq Require Import String Ascii Bool Arith List.
From Verif Require Import Base Tokens Method Paths Context Flavor Attrs Syntax Render Walker RootAttr AttrSpec SiteSpec ProgSpec SettingSpec WalkSpec WalkProofs NodeSpec ProgressSpec ProgressProofs HookProofs FlavorSpec PresetSpec PresetTableProofs PresetProofs GrammarSpec PresetShapeProofs MeaningSpec MeaningProofs RunSpec RunProofs WalkExamples Properties_Attrs Properties_Scope.
From Verif Require FlavorNameProofs Properties_Print Properties_Hooks.
Import ListNotations.
Open Scope string_scope.
Open Scope list_scope.

(** * C51: the expansion means what the program means *)
(** For every meaning [R] that the constructs of Rust respect: if what stands in place of a target means what the target means, at every hook, then the item means what it meant.
    [P] are the macros for which that is so; the program opens no others.  *)
Theorem C51 P R E f it out : expands E f it out -> source it -> congruence P R -> opens_only P it -> observing R out -> item_alike R it (item_actual out).
Proof. exact (fun H Hs => observed P R it out (C04_bare E f it out H Hs) Hs). Qed.
Print Assumptions C51.
(** In the part of Rust that runs (RunSpec.v): a function whose hooks are all [.inspect_err(f)] has the same result, makes the same calls in the same order, and is left at the same [?] and [return];
    only what the observer has seen differs.  [n] bounds the rounds of each loop.  *)
Lemma run_upto st n lib E f a vis s sp b out w ms : forgets st -> blind st lib -> incl ms passing -> (forall m, In m ms -> m = "inspect_err" \/ ctx_free st) ->
  expands E f (IFn a vis s sp b) out -> source (IFn a vis s sp b) -> calls_only ms out ->
  exists a' b', item_actual out = IFn a' vis s sp b' /\ same_upto st (run_fn n lib b w) (run_fn n lib b' w).
Proof.
  intros Hst Hl Hm Hf H Hs Hi. pose proof (C51 (fun _ => True) (runs_like st n lib) E f _ out H Hs (runs_congruence st Hst n lib Hl)) as C.
  assert (O : opens_only (fun _ => True) (IFn a vis s sp b)) by (split; [|intros e _]; apply Forall_forall; auto).
  specialize (C O (calls_observe st Hst n lib Hl ms out Hm Hf Hi)). destruct (item_actual out) as [a' vis' s' sp' b'| | | | | | |] eqn:Eo; try (destruct C as [C _]; discriminate C).
  exists a', b'. assert (X : vis' = vis /\ s' = s /\ sp' = sp) by (destruct C as [C _]; inversion C; auto). destruct X as (-> & -> & ->). split; [reflexivity|].
  exact (run_alike st Hst n lib _ _ _ _ _ _ _ _ _ _ C w w (agree_refl st w)).
Qed.
Theorem C51_run n lib E f a vis s sp b out w : expands E f (IFn a vis s sp b) out -> source (IFn a vis s sp b) -> inspecting out ->
  exists a' b', item_actual out = IFn a' vis s sp b' /\ same_run (run_fn n lib b w) (run_fn n lib b' w).
Proof.
  intros H Hs Hi. destruct (run_upto exactly n lib E f a vis s sp b out w ["inspect_err"] forgets_exactly (blind_exactly lib)) as (a' & b' & Ho & R); try assumption.
  - intros m [<-|[]]. left. reflexivity.
  - intros m [<-|[]]. left. reflexivity.
  - intros h o r Hin. destruct (Hi h o r Hin) as (Hc & sp1 & sp2 & sp3 & g & -> & Hg). split; [exact Hc|]. exists "inspect_err", sp1, sp2, sp3, g. split; [left; reflexivity|auto].
  - exists a', b'. split; [exact Ho|]. apply same_exactly, R.
Qed.
Print Assumptions C51_run.
(** With hooks that put a context around errors ([.with_context(f)], [.wrap_err_with(f)]) the same holds up to contexts, in the values, the calls and the result, if the library does not look at contexts.  *)
Theorem C51_run_context n lib E f a vis s sp b out w : blind strip lib -> expands E f (IFn a vis s sp b) out -> source (IFn a vis s sp b) -> calls_only passing out ->
  exists a' b', item_actual out = IFn a' vis s sp b' /\ same_upto strip (run_fn n lib b w) (run_fn n lib b' w).
Proof.
  intros Hl H Hs Hi. apply (run_upto strip n lib E f a vis s sp b out w passing forgets_strip Hl (incl_refl _)); try assumption. intros m _. right. exact strip_free.
Qed.
Print Assumptions C51_run_context.
(** The bound is no restriction: a function that ends within it ends in the same way with any larger one.  So the two functions end together, in the same way, or go on together.  *)
Theorem C51_rounds n m lib b w : n <= m -> fst (run_fn n lib b w) <> Far -> run_fn m lib b w = run_fn n lib b w.
Proof.
  intros H F. unfold run_fn in *. pose proof (run_more n m lib (EBlock [] [] call_site b) w H) as M. destruct (run n lib (EBlock [] [] call_site b) w) as [f u].
  rewrite M; [reflexivity|]. intros X. cbn in X. subst. apply F. reflexivity.
Qed.
Print Assumptions C51_rounds.
Theorem C51_ends lib E f a vis s sp b out w : expands E f (IFn a vis s sp b) out -> source (IFn a vis s sp b) -> inspecting out ->
  exists a' b', item_actual out = IFn a' vis s sp b' /\
    ((exists n, fst (run_fn n lib b w) <> Far) <-> (exists n, fst (run_fn n lib b' w) <> Far)) /\
    (forall n n', fst (run_fn n lib b w) <> Far -> fst (run_fn n' lib b' w) <> Far -> same_run (run_fn n lib b w) (run_fn n' lib b' w)).
Proof.
  intros H Hs Hi. destruct (C51_run 0 lib E f a vis s sp b out w H Hs Hi) as (a' & b' & Ho & _). exists a', b'. split; [exact Ho|].
  assert (K : forall n, same_run (run_fn n lib b w) (run_fn n lib b' w)).
  { intros n. destruct (C51_run n lib E f a vis s sp b out w H Hs Hi) as (a2 & b2 & Ho2 & K). rewrite Ho in Ho2. inversion Ho2; subst. exact K. }
  split.
  - split; intros [n Hn]; exists n; destruct (K n) as [Kf _]; congruence.
  - intros n n' Hn Hn'. destruct (K (Nat.max n n')) as [Kf Kw]. rewrite (C51_rounds n _ lib b w (Nat.le_max_l n n') Hn), (C51_rounds n' _ lib b' w (Nat.le_max_r n n') Hn') in Kf, Kw. split; assumption.
Qed.
Print Assumptions C51_ends.

(** ** The presets *)
Lemma preset_passes p : p <> ["hook"] -> In (preset_call p) passing.
Proof.
  intros H. unfold preset_call. repeat (match goal with |- context [match ?x with _ => _ end] => destruct x; try (simpl; tauto) end).
Qed.
(** under a preset and without hooq attributes every hook is the target with one method call, read again, and no [?] is consumed *)
Theorem C51_preset_hooks E ft p g it out h o r : expands E (f_core g) it out -> source it -> at_path (preset_flavors ft) p g -> word (ft_crate ft) ->
  (forall n, In n (item_nodes [] it) -> node_events (ev_attr E) (n_attrs n) []) -> In (EHook h o r) (item_subs out) ->
  p <> ["empty"] /\ h_consumed h = None /\ exists call, a_call (preset_call p) call /\ ev_parse E (etoks o ++ call) = Some r.
Proof.
  intros H Hs Hg Hw Hn Hin.
  assert (X : In (EHook h o r) (filter (fun e => match e with EHook _ _ _ => true | _ => false end) (item_subs out))) by (apply filter_In; auto).
  rewrite (Properties_Hooks.C01_all_hook_nodes E _ it out H Hs) in X. apply in_flat_map in X. destruct X as (s' & Hs' & X).
  destruct (s_hook s') as [[h' r']|] eqn:Eh; [|destruct X]. destruct X as [X|[]]. inversion X; subst h' r' o. clear X.
  destruct (position_onto E (f_core g) it out s' H Hs Hs') as (s & Hp). pose proof (position_in it out s s' Hp) as Hsin.
  destruct (hook_trail E (f_core g) it out s s' H Hs Hp h r Eh) as (tr & Ht & _).
  assert (Hq : Forall (fun x => match x with SNode es => es = [] | _ => True end) tr).
  { destruct (fr_all (fun a => node_events (ev_attr E) a [])) as (_ & _ & HI & _).
    specialize (HI it [] Hs (Forall_nil _)). rewrite !Forall_forall in HI. eapply quiet_trail; [|exact Ht]. apply HI; [|exact Hsin]. intros n Hnin. apply Hn, Hnin. }
  destruct (hook_made E (f_core g) it out s s' H Hs Hp tr h r Ht Eh) as [Hk He _ _ Hc (ts & Hr & Hpa)].
  destruct (preset_is ft p g Hg) as [[-> ->]|(Hne & (dot & sp & sp' & arg & Hm) & _)].
  - exfalso. assert (Hh : hooked s') by (unfold hooked; rewrite Eh; discriminate). apply (position_rule E _ it out s s' H Hs Hp tr Ht) in Hh. destruct Hh as [_ Hrule].
    assert (Htg : the_targets (f_core (empty_flavor ft)) tr = mk_switch false false false).
    { clear - Hq. induction Hq as [|x tr Hx Hq IH]; [reflexivity|]. unfold the_targets in *. destruct x; subst; cbn [innermost last_of]; exact IH. }
    destruct (s_kind s); cbn [rule] in Hrule; unfold question_rule, return_rule, tail_rule in Hrule; rewrite Htg in Hrule; cbn in Hrule; intuition congruence.
  - split; [exact Hne|]. split.
    + rewrite Hc. assert (Hme : the_method (f_core g) tr = fl_method (f_core g)).
      { clear - Hq. induction Hq as [|x tr Hx Hq IH]; [reflexivity|]. unfold the_method in *. destruct x; subst; cbn [innermost last_of]; exact IH. }
      rewrite Hme, Hm. destruct (s_kind s); reflexivity.
    + destruct (quiet_methods (f_core g) tr Hq) as [Hms Hb].
      destruct (preset_renders (ev_str E) ft p g (h_ctx h) (h_kind h) (h_count h) (h_source h) (etoks (s_target s')) (h_span h) Hg Hne Hw) as (call & Hr2 & Hca).
      * rewrite (ie_methods _ _ _ He). exact Hms.
      * intros x. rewrite (ie_bindings _ _ _ He). apply Hb.
      * exists call. split; [exact Hca|]. congruence.
Qed.
Print Assumptions C51_preset_hooks.
(** so a program expanded with a preset means what it meant, if a target with such a call means what the target means: with [inspect_err] that is the law of [Result::inspect_err],
    with [with_context] and [wrap_err_with] it holds for meanings that do not look at the context of an error *)
Theorem C51_presets P R E ft p g it out : expands E (f_core g) it out -> source it -> at_path (preset_flavors ft) p g -> word (ft_crate ft) ->
  (forall n, In n (item_nodes [] it) -> node_events (ev_attr E) (n_attrs n) []) -> congruence P R -> opens_only P it ->
  (forall h o r call, In (EHook h o r) (item_subs out) -> a_call (preset_call p) call -> ev_parse E (etoks o ++ call) = Some r -> R (actual o) r) ->
  item_alike R it (item_actual out).
Proof.
  intros H Hs Hg Hw Hn HR Ho Hlaw. apply (C51 P R E (f_core g)); try assumption. intros h o r Hin.
  destruct (C51_preset_hooks E ft p g it out h o r H Hs Hg Hw Hn Hin) as (_ & Hc & call & Hca & Hpa). unfold replaced. rewrite Hc. eapply Hlaw; eassumption.
Qed.
Print Assumptions C51_presets.
(** in the part of Rust that runs: under [default], [log], [tracing] and [empty] a function runs as it did, if the parser reads [target.inspect_err(CLOSURE)] as a method call on the target *)
Theorem C51_presets_run n lib E ft p g a vis s sp b out w : expands E (f_core g) (IFn a vis s sp b) out -> source (IFn a vis s sp b) -> at_path (preset_flavors ft) p g -> word (ft_crate ft) ->
  preset_call p = "inspect_err" -> (forall n, In n (item_nodes [] (IFn a vis s sp b)) -> node_events (ev_attr E) (n_attrs n) []) ->
  (forall h o r call, In (EHook h o r) (item_subs out) -> a_call "inspect_err" call -> ev_parse E (etoks o ++ call) = Some r ->
     exists sp1 sp2 sp3 f, r = EMethodCall [] (actual o) [TPunct "." sp1; TIdent "inspect_err" sp2] sp3 [f] [] /\ observer f) ->
  exists a' b', item_actual out = IFn a' vis s sp b' /\ same_run (run_fn n lib b w) (run_fn n lib b' w).
Proof.
  intros H Hs Hg Hw Hi Hn Hlaw. apply (C51_run n lib E (f_core g) a vis s sp b out w H Hs). intros h o r Hin.
  destruct (C51_preset_hooks E ft p g _ out h o r H Hs Hg Hw Hn Hin) as (_ & Hc & call & Hca & Hpa). rewrite Hi in Hca. split; [exact Hc|]. eapply Hlaw; eassumption.
Qed.
Print Assumptions C51_presets_run.
(** and under [anyhow], [eyre] and [color_eyre] up to contexts *)
Theorem C51_presets_run_context n lib E ft p g a vis s sp b out w : blind strip lib ->
  expands E (f_core g) (IFn a vis s sp b) out -> source (IFn a vis s sp b) -> at_path (preset_flavors ft) p g -> word (ft_crate ft) ->
  p <> ["hook"] -> (forall n, In n (item_nodes [] (IFn a vis s sp b)) -> node_events (ev_attr E) (n_attrs n) []) ->
  (forall h o r call, In (EHook h o r) (item_subs out) -> a_call (preset_call p) call -> ev_parse E (etoks o ++ call) = Some r ->
     exists sp1 sp2 sp3 f, r = EMethodCall [] (actual o) [TPunct "." sp1; TIdent (preset_call p) sp2] sp3 [f] [] /\ observer f) ->
  exists a' b', item_actual out = IFn a' vis s sp b' /\ same_upto strip (run_fn n lib b w) (run_fn n lib b' w).
Proof.
  intros Hl H Hs Hg Hw Hi Hn Hlaw. apply (C51_run_context n lib E (f_core g) a vis s sp b out w Hl H Hs). intros h o r Hin.
  destruct (C51_preset_hooks E ft p g _ out h o r H Hs Hg Hw Hn Hin) as (_ & Hc & call & Hca & Hpa). split; [exact Hc|]. exists (preset_call p).
  destruct (Hlaw h o r call Hin Hca Hpa) as (sp1 & sp2 & sp3 & fn & K). exists sp1, sp2, sp3, fn. split; [exact (preset_passes p Hi)|exact K].
Qed.
Print Assumptions C51_presets_run_context.

(** * A concrete case *)
Definition xr_core : fcore :=
  {| fl_traits := []; fl_method := Insert call_site [qi "inspect_err"; qg Parenth [qi "log"]] false; fl_targets := mk_switch true true true;
     fl_tails := ["Err"]; fl_ignores := ["Ok"]; fl_results := ["Result"]; fl_macros := true; fl_bindings := [] |}.
Definition xr_insp (e : expr) : expr := EMethodCall [] e [qp "."; qi "inspect_err"] call_site [x_name "log"] [].
(** fn main() -> Result { let x = f(g()?)?; if c() { return Err(x); } h(x) } *)
Definition xr_body : list stmt :=
  [x_let [] "x" (x_try (x_call "f" [x_try (x_call "g" [])]));
   SExpr (EIf [] [qi "if"] (x_call "c" []) call_site [semi (x_ret (x_call "Err" [x_name "x"]))] [] None) None;
   tail (x_call "h" [x_name "x"])].
Definition xr_main : item := x_fn [xa_word ["inline"]] "main" (RetPath (xa_path ["Result"])) xr_body.
(** a parser for the four texts that are rendered *)
Definition xr_table : list expr :=
  map xr_insp [x_call "g" []; x_call "f" [x_try (xr_insp (x_call "g" []))]; x_call "Err" [x_name "x"]; x_call "h" [x_name "x"]].
Definition xr_parse (ts : list tt) : option expr := find (fun e => String.eqb (Properties_Print.text (etoks e)) (Properties_Print.text ts)) xr_table.
Definition xr_env : env := mk_env xa_env xr_parse (fun _ => "text").
Definition xr_out : item := Eval vm_compute in out_of xr_env xr_core xr_main.
(** with hooks: let x = f(g().inspect_err(log)?).inspect_err(log)?; if c() { return Err(x).inspect_err(log); } h(x).inspect_err(log) *)
Definition xr_new : list stmt :=
  [x_let [] "x" (x_try (xr_insp (x_call "f" [x_try (xr_insp (x_call "g" []))])));
   SExpr (EIf [] [qi "if"] (x_call "c" []) call_site [semi (x_ret (xr_insp (x_call "Err" [x_name "x"])))] [] None) None;
   tail (xr_insp (x_call "h" [x_name "x"]))].
Example C51_ex : expands xr_env xr_core xr_main xr_out /\ source xr_main /\ inspecting xr_out /\ item_actual xr_out = x_fn [xa_word ["inline"]] "main" (RetPath (xa_path ["Result"])) xr_new.
Proof.
  split; [eexists; vm_compute; reflexivity|]. split; [reflexivity|]. split; [|vm_compute; reflexivity].
  assert (A : Forall (fun e => match e with
    | EHook h o r => h_consumed h = None /\ exists sp1 sp2 sp3 f, r = EMethodCall [] (actual o) [TPunct "." sp1; TIdent "inspect_err" sp2] sp3 [f] [] /\ observer f
    | _ => True end) (item_subs xr_out)).
  { vm_compute. repeat (constructor; [first [exact I|split; [reflexivity|do 4 eexists; split; [reflexivity|exact I]]]|]). constructor. }
  intros h o r H. exact (proj1 (Forall_forall _ _) A _ H).
Qed.
(** a library in which [g] succeeds, [c] says [c0] and [f] and [h] fail or not *)
Definition xr_lib (c0 : string) (f0 h0 : val) : library := fun _ f vs =>
  (match f with VName "g" => VOk (VName "1") | VName "c" => VName c0 | VName "f" => f0 | _ => h0 end, []).
Definition xr_start : world := mk_world [] [] [].
Definition xr_see (lib : library) (b : list stmt) := let r := run_fn 9 lib b xr_start in (fst r, map fst (w_calls (snd r)), w_log (snd r)).
Example C51_ex_run :
  (* f fails: left at its [?] *)
  xr_see (xr_lib "true" (VErr (VName "bad")) VUnit) xr_body = (Go (VErr (VName "bad")), map VName ["g"; "f"], []) /\
  xr_see (xr_lib "true" (VErr (VName "bad")) VUnit) xr_new = (Go (VErr (VName "bad")), map VName ["g"; "f"], [VName "bad"]) /\
  (* left at the return *)
  xr_see (xr_lib "true" (VOk (VName "2")) VUnit) xr_new = (Go (VErr (VName "2")), map VName ["g"; "f"; "c"], [VName "2"]) /\
  xr_see (xr_lib "true" (VOk (VName "2")) VUnit) xr_body = (Go (VErr (VName "2")), map VName ["g"; "f"; "c"], []) /\
  (* the end is reached *)
  xr_see (xr_lib "false" (VOk (VName "2")) (VOk VUnit)) xr_new = (Go (VOk VUnit), map VName ["g"; "f"; "c"; "h"], []) /\
  xr_see (xr_lib "false" (VOk (VName "2")) (VOk VUnit)) xr_body = (Go (VOk VUnit), map VName ["g"; "f"; "c"; "h"], []).
Proof. vm_compute. repeat split. Qed.
(** any library can be made one that does not look at contexts *)
Definition blindfold (lib : library) : library := fun past f vs => lib (calls_of strip past) (strip f) (map strip vs).
Lemma blindfold_blind lib : blind strip (blindfold lib).
Proof. intros past past' f f' vs vs' H1 H2 H3. unfold blindfold. rewrite H1, H2, H3. auto. Qed.
(** fn main() -> Result { let x = f(g()?).with_context(c)?; match x { e => Err(e).wrap_err_with(c) } } with contexts around the error *)
Definition xc_ctx (m : string) (e : expr) : expr := EMethodCall [] e [qp "."; qi m] call_site [x_name "c"] [].
Definition xc_old : list stmt := [x_let [] "x" (x_try (x_call "f" [x_try (x_call "g" [])])); tail (EMatch [] [qi "match"] (x_name "x") call_site [Arm [] [qi "e"] [] None [qp "="; qp ">"] (x_call "Err" [x_name "e"]) []])].
Definition xc_new : list stmt :=
  [x_let [] "x" (x_try (xc_ctx "with_context" (x_call "f" [x_try (xc_ctx "with_context" (x_call "g" []))])));
   tail (EMatch [] [qi "match"] (x_name "x") call_site [Arm [] [qi "e"] [] None [qp "="; qp ">"] (xc_ctx "wrap_err_with" (x_call "Err" [x_name "e"])) []])].
Example C51_ex_run_context : let lib f0 := blindfold (xr_lib "true" f0 VUnit) in
  (forall f0, blind strip (lib f0)) /\
  xr_see (lib (VErr (VName "bad"))) xc_old = (Go (VErr (VName "bad")), map VName ["g"; "f"], []) /\
  xr_see (lib (VErr (VName "bad"))) xc_new = (Go (VErr (VCtx (VName "bad"))), map VName ["g"; "f"], []) /\
  xr_see (lib (VOk (VName "2"))) xc_old = (Go (VErr (VName "2")), map VName ["g"; "f"], []) /\
  xr_see (lib (VOk (VName "2"))) xc_new = (Go (VErr (VCtx (VName "2"))), map VName ["g"; "f"], []) /\
  strip (VErr (VCtx (VName "2"))) = VErr (VName "2") /\ strip (VErr (VName "3")) <> VErr (VName "2").
Proof. cbv zeta. split; [intros; apply blindfold_blind|]. vm_compute. repeat split. discriminate. Qed.
(** [C51] says nothing of a program that opens a macro outside [P] *)
Example C51_ex_stringify : let it := x_fn [] "f" RetNone [Syntax.SMacro [] (x_mac "stringify" [VExpr (x_try (x_call "g" [])) []]) [qp ";"]] in
  opens_only (fun p => p_idents p <> ["stringify"]) it -> False.
Proof. cbn. intros [H _]. inversion_clear H. apply H0. reflexivity. Qed.
(** the same function under the preset [default], with a parser of calls with a closure *)
Fixpoint xp_read (n : nat) (ts : list tt) : option expr :=
  match n, ts with
  | S n, [TIdent x _; TGroup Parenth args _; TPunct _ _; TIdent m _; TGroup Parenth cl _] =>
      let call es := Some (EMethodCall [] (x_call x es) [qp "."; qi m] call_site [EClosure [] [] RetNone (EVerbatim cl)] []) in
      match args with
      | [] => call []
      | [TIdent y _] => call [x_name y]
      | _ => match xp_read n (removelast args) with Some e => call [x_try e] | None => None end
      end
  | _, _ => None
  end.
Definition xp_ft : features := mk_features false true true true true "hooq".
Definition xp_env : env := mk_env xa_env (xp_read 5) (fun _ => "text").
Definition xp_core : fcore := f_core (default_flavor xp_ft).
Definition xp_out : item := Eval vm_compute in out_of xp_env xp_core xr_main.
Example C51_ex_presets : at_path (preset_flavors xp_ft) ["default"] (default_flavor xp_ft) /\ word (ft_crate xp_ft) /\ expands xp_env xp_core xr_main xp_out /\
  length (filter (fun e => match e with EHook _ _ _ => true | _ => false end) (item_subs xp_out)) = 4 /\
  (forall n, In n (item_nodes [] xr_main) -> node_events (ev_attr xp_env) (n_attrs n) []) /\
  (forall h o r call, In (EHook h o r) (item_subs xp_out) -> a_call "inspect_err" call -> ev_parse xp_env (etoks o ++ call) = Some r ->
     exists sp1 sp2 sp3 f, r = EMethodCall [] (actual o) [TPunct "." sp1; TIdent "inspect_err" sp2] sp3 [f] [] /\ observer f).
Proof.
  split; [apply FlavorNameProofs.get_flavor_ok; vm_compute; reflexivity|]. split; [vm_compute; intuition discriminate|]. split; [eexists; vm_compute; reflexivity|]. split; [vm_compute; reflexivity|]. split.
  - assert (A : Forall (fun n => n_attrs n = [] \/ n_attrs n = [xa_word ["inline"]]) (item_nodes [] xr_main)) by (vm_compute; repeat (constructor; [first [left; reflexivity|right; reflexivity]|]); constructor).
    intros n Hn. destruct (proj1 (Forall_forall _ _) A n Hn) as [->| ->]; [constructor|]. apply ne_foreign; [reflexivity| |constructor].
    intros (x & r & H1 & H2 & _). vm_compute in H1. inversion H1; subst. discriminate.
  - assert (A : Forall (fun e => match e with
      | EHook h o r => exists sp1 sp2 sp3 f, r = EMethodCall [] (actual o) [TPunct "." sp1; TIdent "inspect_err" sp2] sp3 [f] [] /\ observer f
      | _ => True end) (item_subs xp_out)).
    { vm_compute. repeat (constructor; [first [exact I|do 4 eexists; split; [reflexivity|exact I]]|]). constructor. }
    intros h o r call Hin _ _. exact (proj1 (Forall_forall _ _) A _ Hin).
Qed.
