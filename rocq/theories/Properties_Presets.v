(** Properties of the presets (C48) and of the name of the crate in generated code (C49).  *)
From Coq Require Import String Ascii Bool Arith Lia List.
From Verif Require Import Base Tokens Method Paths Context Flavor Attrs Syntax Render Walker FlavorSpec RenderSpec AttrSpec SiteSpec ProgSpec SettingSpec WalkSpec CrateName PresetSpec PresetTableProofs WalkExamples.
Import ListNotations.
Open Scope string_scope.
Open Scope list_scope.

(** * C48: presets by feature *)
(** which presets there are *)
Theorem C48_paths ft p : (exists g, at_path (preset_flavors ft) p g) <-> listed ft p.
Proof. exact (preset_paths ft p). Qed.
Print Assumptions C48_paths.
(** all of them but [empty] have the default targets, idents, types and hook_in_macros *)
Theorem C48_settings ft p g : at_path (preset_flavors ft) p g -> p <> ["empty"] ->
  fl_targets (f_core g) = mk_switch true true true /\ fl_tails (f_core g) = ["Err"] /\ fl_ignores (f_core g) = ["Ok"] /\ fl_results (f_core g) = ["Result"] /\
  fl_macros (f_core g) = true.
Proof. intros H Hp. destruct (preset_is ft p g H) as [[-> _]|(_ & _ & _ & H1)]; [congruence|tauto]. Qed.
Print Assumptions C48_settings.
(** the call they append to the target; they never remove the [?] *)
Theorem C48_call ft p g : at_path (preset_flavors ft) p g -> p <> ["empty"] ->
  exists dot sp sp' arg, fl_method (f_core g) = Insert dot [TIdent (preset_call p) sp; TGroup Parenth arg sp'] false.
Proof. intros H Hp. destruct (preset_is ft p g H) as [[-> _]|(_ & H1 & _)]; [congruence|exact H1]. Qed.
Print Assumptions C48_call.
(** the traits they import, and [$level] *)
Theorem C48_imports ft p g : at_path (preset_flavors ft) p g ->
  map p_idents (fl_traits (f_core g)) = preset_imports p /\ Forall (fun q => p_lead q = true /\ Forall (fun s => seg_args s = []) (p_segs q)) (fl_traits (f_core g)).
Proof. intros H. destruct (preset_is ft p g H) as [[-> ->]|(_ & _ & H1 & _)]; [split; constructor|exact H1]. Qed.
Print Assumptions C48_imports.
Theorem C48_level ft p g : at_path (preset_flavors ft) p g ->
  fl_bindings (f_core g) = match preset_level p with
                           | Some l => [("level", flat_map (fun n => [TPunct ":" call_site; TPunct ":" call_site; TIdent n call_site]) l)]
                           | None => []
                           end.
Proof. intros H. destruct (preset_is ft p g H) as [[-> ->]|(_ & _ & _ & H1)]; [reflexivity|apply H1]. Qed.
Print Assumptions C48_level.
(** [empty] hooks nothing *)
Theorem C48_empty ft g : at_path (preset_flavors ft) ["empty"] g ->
  fl_targets (f_core g) = mk_switch false false false /\ fl_macros (f_core g) = false /\ fl_bindings (f_core g) = [] /\ fl_traits (f_core g) = [] /\ f_subs g = [].
Proof. intros H. destruct (preset_is ft _ g H) as [[_ ->]|(H1 & _)]; [repeat split|congruence]. Qed.
Print Assumptions C48_empty.
(** a preset does not depend on the other features *)
Theorem C48_independent ft ft' p g g' : at_path (preset_flavors ft) p g -> at_path (preset_flavors ft') p g' -> ft_crate ft' = ft_crate ft -> g' = g.
Proof. exact (preset_same ft ft' p g g'). Qed.
Print Assumptions C48_independent.

(** features log and eyre; without feature tracing there is no [tracing::warn] *)
Definition xp_features : features := mk_features false true false true false "hooq".
Example C48_ex : (exists g, at_path (preset_flavors xp_features) ["log"; "warn"] g /\ f_subs g = [] /\
    fl_bindings (f_core g) = [("level", [qp ":"; qp ":"; qi "log"; qp ":"; qp ":"; qi "Level"; qp ":"; qp ":"; qi "Warn"])]) /\
  listed xp_features ["color_eyre"] /\ ~ listed xp_features ["tracing"; "warn"] /\ ~ listed xp_features ["log"; "fatal"] /\ ~ listed xp_features ["eyre"; "warn"].
Proof.
  split; [|split; [|split; [|split]]].
  - eexists. split; [eapply at_top; [reflexivity|]; eapply un_sub; [reflexivity|]; apply un_here|]. split; reflexivity.
  - apply li_eyre; cbn; tauto.
  - intros H. inversion H; subst; discriminate.
  - intros H. inversion H; subst. match goal with Hl : In _ levels |- _ => cbn in Hl; intuition discriminate end.
  - intros H. inversion H.
Qed.
Example C48_ex_all : map (fun p => match get_flavor (preset_flavors xp_features) p with Ok g => Some (preset_call p, preset_level p, map p_idents (fl_traits (f_core g))) | _ => None end)
    [["default"]; ["hook"]; ["log"]; ["log"; "trace"]; ["eyre"]; ["color_eyre"]; ["anyhow"]; ["tracing"]] =
  [Some ("inspect_err", None, []); Some ("hook", None, []); Some ("inspect_err", Some ["log"; "Level"; "Error"], []); Some ("inspect_err", Some ["log"; "Level"; "Trace"], []);
   Some ("wrap_err_with", None, [["eyre"; "ContextCompat"]; ["eyre"; "WrapErr"]]);
   Some ("wrap_err_with", None, [["color_eyre"; "eyre"; "ContextCompat"]; ["color_eyre"; "eyre"; "WrapErr"]]); None; None].
Proof. vm_compute. reflexivity. Qed.

(** * C49: the name of the crate *)
(** the name under which hooq is a dependency, else the one of hooq-macros, with underscores; [hooq] if there is neither *)
Theorem C49_name look n : hooq_crate_name look = n ->
  (exists d, (look "hooq" = FoundName d \/ look "hooq" = FoundNone /\ look "hooq-macros" = FoundName d) /\
     forall i, String.get i n = option_map (fun c => if Ascii.eqb c "-" then "_"%char else c) (String.get i d)) \/
  (n = "hooq" /\ (look "hooq" = FoundItself \/ look "hooq" = FoundNone /\ (look "hooq-macros" = FoundItself \/ look "hooq-macros" = FoundNone))).
Proof.
  intros <-. unfold hooq_crate_name. destruct (look "hooq") as [|d|] eqn:E1.
  - right. tauto.
  - left. exists d. split; [tauto|]. intros i. apply get_replace.
  - destruct (look "hooq-macros") as [|d|] eqn:E2; [right; tauto|left|right; tauto]. exists d. split; [tauto|]. intros i. apply get_replace.
Qed.
Print Assumptions C49_name.
(** the absolute paths in the preset methods: the helpers of hooq under the name of the crate, and the macros they call *)
Theorem C49_presets_partial ft p g q : at_path (preset_flavors ft) p g -> In q (abs_paths_of (m_template (fl_method (f_core g)))) ->
  q = ["std"; "eprintln"] \/ q = ["log"; "log"] \/ q = ["tracing"; "event"] \/
  (exists m, In m ["excerpted_pretty_stringify"; "one_line_stringify"] /\
     q = if String.eqb (ft_crate ft) "hooq_macros" then ["hooq_macros"; m] else [ft_crate ft; "source_excerpt_helpers"; m]).
Proof. exact (preset_abs_paths ft p g q). Qed.
Print Assumptions C49_presets_partial.
Example C49_ex : let look := fun s => if String.eqb s "hooq" then FoundName "my-hooq" else FoundNone in
  hooq_crate_name look = "my_hooq" /\
  abs_paths_of (m_template (fl_method (f_core (default_flavor (mk_features false true false false false (hooq_crate_name look)))))) =
    [["my_hooq"; "source_excerpt_helpers"; "excerpted_pretty_stringify"]; ["std"; "eprintln"]].
Proof. split; vm_compute; reflexivity. Qed.
(** [$hooq_meta], and with it the preset [hook], does not use that name: the crate is a dependency under the name
    my-hooq and the hook of [a()?] refers to [::hooq::HooqMeta] *)
Definition x_look (s : string) : found := if String.eqb s "hooq" then FoundName "my-hooq" else FoundNone.
Definition x_hook_core : fcore := f_core (hook_flavor (mk_features false false false false false (hooq_crate_name x_look))).
Definition x_one : item := x_fn [] "main" RetNone [semi (x_try (x_call "a" []))].
Theorem C49_refuted : exists E look ft g it out h r p, ft_crate ft = hooq_crate_name look /\ hooq_crate_name look <> "hooq" /\
  at_path (preset_flavors ft) ["hook"] g /\ expands E (f_core g) it out /\ source it /\ In h (hooks_of (item_subs out)) /\
  In (EHook h (x_call "a" []) r) (item_subs out) /\ In ("hooq" :: p) (abs_paths_of (etoks r)).
Proof.
  exists x_env, x_look, (mk_features false false false false false (hooq_crate_name x_look)), (hook_flavor (mk_features false false false false false (hooq_crate_name x_look))), x_one, (out_of x_env x_hook_core x_one).
  do 2 eexists. exists ["HooqMeta"]. split; [reflexivity|]. split; [vm_compute; discriminate|]. split; [eapply at_top; [reflexivity|apply un_here]|]. split; [eexists; vm_compute; reflexivity|].
  split; [reflexivity|]. split; [vm_compute; left; reflexivity|]. split; [vm_compute; right; right; left; reflexivity|]. vm_compute. tauto.
Qed.
Print Assumptions C49_refuted.
