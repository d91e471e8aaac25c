(** What the presets insert is a method call with a closure.  *)
From Coq Require Import String Ascii Bool Arith Lia List.
From Verif Require Import Base Tokens Method Paths Context Flavor Attrs Syntax Render Walker RootAttr RenderSpec AttrSpec SiteSpec ProgSpec SettingSpec WalkSpec NodeSpec FlavorSpec CrateName PresetSpec PresetTableProofs ProgressSpec ProgressProofs PresetProofs GrammarSpec.
Import ListNotations.
Open Scope string_scope.
Open Scope list_scope.

Lemma word_dec s : (if in_dec string_dec s keywords then false else true) = true -> word s.
Proof. destruct (in_dec string_dec s keywords); [discriminate|auto]. Qed.
Ltac a_word := first [assumption | apply word_dec; vm_compute; reflexivity].
Ltac reads :=
  match goal with
  | |- a_path _ _ => first [apply ap_one; a_word | apply ap_more; [a_word|reads]]
  | |- an_expr _ _ => first [apply ge_lit | apply ge_name_macro; a_word | apply ge_name; a_word
      | eapply ge_path_macro; reads | eapply ge_struct; [reads|reads] | eapply ge_call; [reads|reads] | apply ge_path; reads | apply ge_array; reads]
  | |- some_args _ => first [apply ga_none | apply ga_last; reads | eapply ga_more; [reads|reads]]
  | |- some_fields _ => first [apply gf_none | eapply gf_more; [a_word|reads|reads]]
  | |- some_stmts _ => first [apply gs_none | eapply gs_let; [a_word|reads|reads] | apply gs_last; reads | eapply gs_expr; [reads|reads]]
  | |- a_closure _ => first [apply gc_none; reads | apply gc_one; [a_word|reads]]
  | |- a_call _ _ => apply call_with; reads
  end.

Lemma one_method (fm : field method) m : chain fm = [m] -> fm = Field m None.
Proof.
  destruct fm as [x [a|]]; cbn; intros H; [|congruence]. destruct a; cbn in H; inversion H.
Qed.
Lemma no_keys {A} (m : smap A) : (forall x, mget x m = None) -> m = [].
Proof. destruct m as [|[k v] m]; [reflexivity|]. intros H. specialize (H k). cbn [mget] in H. rewrite String.eqb_refl in H. discriminate. Qed.

Lemma preset_renders ts_str ft p g c k n src ets q : at_path (preset_flavors ft) p g -> p <> ["empty"] -> word (ft_crate ft) ->
  chain (cx_method c) = [fl_method (f_core g)] -> (forall x, mget x (fval (cx_bindings c)) = mget x (fl_bindings (f_core g))) ->
  exists call, render_toks ts_str c k n src ets q = Ok (ets ++ call) /\ a_call (preset_call p) call.
Proof.
  intros Hg Hp Hw Hm Hb. destruct (render_toks ts_str c k n src ets q) as [ts|x|x] eqn:H; unfold render_toks in H; apply one_method in Hm; rewrite Hm in H; apply preset_in in Hg.
  all: destruct ft as [cq fl fa fe ft crate]; cbn [ft_crate] in Hw; cbn [ft_log ft_anyhow ft_eyre ft_tracing] in *.
  all: cases Hg; try congruence;
    cbn [f_core default_flavor empty_flavor hook_flavor log_flavor tracing_flavor anyhow_flavor eyre_flavor color_eyre_flavor log_level tracing_level default_core core_with fl_method fl_bindings default_method ft_consume ft_crate] in H, Hb;
    unfold default_method, default_method_toks, log_method_toks, tracing_method_toks, context_method_toks, preset_prefix, let_expr, helpers_path in H; cbn [ft_crate ft_consume] in H;
    clear Hp Hm.
  all: try (assert (Hl : exists a b d, get_binding c "level" = Some [qp ":"; qp ":"; qi a; qp ":"; qp ":"; qi b; qp ":"; qp ":"; qi d] /\ word a /\ word b /\ word d)
              by (unfold get_binding; rewrite Hb; do 3 eexists; split; [reflexivity|split; [|split]; a_word]);
            destruct Hl as (la & lb & ld & Hl & Hla & Hlb & Hld)).
  all: try (assert (He : fval (cx_bindings c) = []) by (apply no_keys; intros x; rewrite Hb; reflexivity)).
  all: destruct cq; try destruct (String.eqb crate "hooq_macros").
  all: lazy beta iota zeta delta -[get_binding available_bindings hooq_meta get_fn_name get_fn_sig get_file_name count_str] in H.
  all: try rewrite Hl in H.
  all: try (unfold hooq_meta, get_bindings_token_stream, available_bindings in H; rewrite He in H).
  all: lazy beta iota zeta delta -[get_file_name count_str] in H.
  all: try discriminate H.
  all: match type of H with Ok ?x = _ => assert (Ht : ts = x) by congruence end; clear H; rewrite Ht; eexists; (split; [reflexivity|]).
  all: reads.
Qed.
Lemma quiet_renders E ft p g s tr e' c n : at_path (preset_flavors ft) p g -> p <> ["empty"] -> word (ft_crate ft) ->
  Forall (fun x => match x with SNode es => es = [] | _ => True end) tr -> in_effect (f_core g) tr c ->
  exists call, render_toks (ev_str E) c (kind_of (s_kind s)) n (etoks (without_own_hooq (s_whole s))) (etoks e') (hook_span s e') = Ok (etoks e' ++ call) /\ a_call (preset_call p) call.
Proof.
  intros Hg Hp Hw Hq Hc. destruct (quiet_methods (f_core g) tr Hq) as [Hm Hb]. eapply preset_renders; [exact Hg|exact Hp|exact Hw| |].
  - rewrite (ie_methods _ _ _ Hc). exact Hm.
  - intros x. rewrite (ie_bindings _ _ _ Hc). apply Hb.
Qed.
