(** Property C42 for the macro as a whole, and for the presets.

    [a_call name ts] (GrammarSpec.v): [ts] is [.name(|..| { .. })] with statements of a small part of Rust. *)
From Coq Require Import String Ascii Bool Arith Lia List.
From Verif Require Import Base Tokens Method Paths Context Flavor Attrs Syntax Render Walker RootAttr RenderSpec AttrSpec SiteSpec ProgSpec SiteProofs SettingSpec SettingProofs WalkSpec NodeSpec ProgressSpec ProgressProofs PresetProofs TomlStore FlavorSpec FlavorNameProofs FlavorStoreProofs CrateName PresetSpec PresetTableProofs GrammarSpec PresetShapeProofs Properties_Attrs WalkExamples Properties_Flavor Properties_Progress.
Import ListNotations.
Open Scope string_scope.
Open Scope list_scope.

(** the flavor the arguments name *)
Definition named_flavor (fs : list (option (list string))) : list string := match last_some fs with Some l => l | None => ["default"] end.
(** an argument without a meaning, or a flavor that cannot be had *)
Definition bad_argument (PPs : list tt -> option (list path)) (args : list meta) : Prop := exists m, In m args /\ ~ arg_form PPs m.
Definition no_flavor (env : attr_env) (args : list meta) : Prop :=
  exists fs, Forall2 arg_flavor args fs /\ exists x, ae_flavor env (named_flavor fs) = Err x.
(** [f] is the flavor in force *)
Definition root_flavor (env : attr_env) (args : list meta) (f : fcore) : Prop :=
  exists fs, Forall2 arg_flavor args fs /\ ae_flavor env (named_flavor fs) = Ok f.

Lemma forms_read PPs args : Forall (arg_form PPs) args -> Forall (fun m => match m with MPath p => p_segs p <> [] | _ => True end) args ->
  exists fs ts, Forall2 arg_flavor args fs /\ Forall2 (arg_traits PPs) args ts.
Proof.
  induction 1 as [|m args Hm HF IH]; intros Hne; [exists [], []; split; constructor|]. inversion Hne as [|? ? Hm2 Hne2]; subst. destruct (IH Hne2) as (fs & ts & H1 & H2).
  destruct Hm as [p Hp|sg d t sp l Hid Ha Hl|sg s sp l Hid Ha Hs Hn].
  - exists (Some (p_idents p) :: fs), ([] :: ts). split; constructor; try assumption; constructor; assumption.
  - exists (None :: fs), (l :: ts). split; constructor; try assumption; econstructor; eassumption.
  - exists (Some l :: fs), ([] :: ts). split; constructor; try assumption; [constructor; try assumption; constructor; assumption|constructor].
Qed.
Lemma form_step PPs m r : arg_form PPs m -> exists r', root_step PPs r m = Ok r'.
Proof.
  intros Hf. destruct Hf as [p Hp|sg d t sp l Hid Ha Hl|sg s sp l Hid Ha Hs Hn]; cbn [root_step].
  - rewrite (proj2 (path_path p (p_idents p)) (conj eq_refl Hp)). cbn. eauto.
  - unfold path_is_ident, path_get_ident. cbn [p_lead p_segs]. rewrite Ha, Hl. destruct Hid as [Hid|Hid]; rewrite Hid; cbn; eauto.
  - unfold path_is_ident, path_get_ident. cbn [p_lead p_segs]. rewrite Ha, Hid. cbn. rewrite (proj2 (string_path_splits s l) (conj Hs Hn)). cbn. eauto.
Qed.
Lemma form_dec PPs m : arg_form PPs m \/ ~ arg_form PPs m.
Proof.
  destruct (root_step PPs (mk_root [] None) m) as [r|x|x] eqn:Er.
  - left. assert (H : root_loop PPs [m] (mk_root [] None) = Ok r) by (cbn [root_loop]; rewrite Er; reflexivity). apply root_loop_forms in H. inversion H; assumption.
  - right. intros Hf. destruct (form_step PPs m (mk_root [] None) Hf) as (r & Hr). congruence.
  - right. intros Hf. destruct (form_step PPs m (mk_root [] None) Hf) as (r & Hr). congruence.
Qed.
Lemma forms_dec PPs args : Forall (arg_form PPs) args \/ bad_argument PPs args.
Proof.
  induction args as [|m args IH]; [left; constructor|]. destruct (form_dec PPs m) as [Hm|Hm]; [|right; exists m; split; [left; reflexivity|exact Hm]].
  destruct IH as [IH|(x & Hx & Hn)]; [left; constructor; assumption|right; exists x; split; [right; exact Hx|exact Hn]].
Qed.
Lemma step_no_panic PPs m r x : root_step PPs r m <> Panic x.
Proof.
  destruct m as [p|p d ts sp|p v]; cbn [root_step].
  - destruct (flavor_path_of_path p) as [l|y|y] eqn:Ep; cbn [bindR]; try discriminate. intros _. revert Ep. unfold flavor_path_of_path. generalize (p_segs p).
    intros l. revert y. induction l as [|sg l IH]; intros y Hy; [discriminate|]. cbn [mapR] in Hy. destruct (seg_args sg); [|discriminate]. destruct (String.eqb (seg_id sg) ""); [discriminate|].
    cbn [bindR] in Hy. destruct (mapR _ l) as [l1|z|z] eqn:El; try discriminate. exact (IH z eq_refl).
  - destruct (_ || _); [|discriminate]. destruct (PPs ts); discriminate.
  - destruct v; try discriminate. destruct (path_is_ident p "flavor"); [|discriminate]. destruct (flavor_path_of_string s) as [l|y|y] eqn:Ep; cbn [bindR]; try discriminate. intros _.
    revert Ep. unfold flavor_path_of_string. generalize (flat_map (fun s0 => split_cc s0 "") (split_dot s "")). intros l. revert y.
    induction l as [|t l IH]; intros y Hy; [discriminate|]. cbn [mapR] in Hy. destruct (String.eqb t ""); [discriminate|]. cbn [bindR] in Hy. destruct (mapR _ l) as [l1|z|z] eqn:El; try discriminate. exact (IH z eq_refl).
Qed.
Lemma loop_bad PPs args : forall r, match root_loop PPs args r with Ok _ => True | Err _ => bad_argument PPs args | Panic _ => False end.
Proof.
  induction args as [|m args IH]; intros r; [exact I|]. cbn [root_loop]. destruct (root_step PPs r m) as [r1|x|x] eqn:Er; cbn [bindR].
  - specialize (IH r1). destruct (root_loop PPs args r1); auto. destruct IH as (y & Hy & Hn). exists y. split; [right; exact Hy|exact Hn].
  - exists m. split; [left; reflexivity|]. intros Hf. destruct (form_step PPs m r Hf) as (r2 & Hr). congruence.
  - exact (step_no_panic _ _ _ _ Er).
Qed.

(** * The macro fails for one of five reasons *)
Theorem C42_macro PPs E args it : source it -> real_lookup (ev_attr E) -> Forall (fun m => p_segs (meta_path m) <> []) args ->
  match hooq_impls PPs E args it with
  | Ok _ => True
  | Err _ => bad_argument PPs args \/ no_flavor (ev_attr E) args \/
             exists f, root_flavor (ev_attr E) args f /\
               ((exists n, In n (item_nodes [] it) /\ unreadable (ev_attr E) f n) \/ (exists s, In s (item_sites [] it) /\ unfillable E f s))
  | Panic m => m = "parse_quote!" /\ exists f s, root_flavor (ev_attr E) args f /\ In s (item_sites [] it) /\ unparsable E f s
  end.
Proof.
  intros Hs Hl Hne. unfold hooq_impls, hooq_impls_parts. unfold parse_root.
  pose proof (loop_bad PPs args (mk_root [] None)) as Hb. destruct (root_loop PPs args (mk_root [] None)) as [ra|x|x] eqn:Er; cbn [bindR]; [|left; exact Hb|destruct Hb].
  pose proof (root_loop_forms _ _ _ _ Er) as Hf.
  destruct (forms_read PPs args Hf) as (fs & ts & H1 & H2).
  { eapply Forall_impl; [|exact Hne]. intros [p|p d t sp|p v]; cbn; auto. }
  rewrite (root_loop_ok PPs args fs ts H1 H2) in Er. assert (Ha : ra = mk_root (concat ts) (last_some fs)) by (cbn [ra_traits ra_flavor app] in Er; destruct (last_some fs); congruence).
  subst ra. unfold root_load. cbn [ra_flavor ra_traits]. fold (named_flavor fs).
  destruct (ae_flavor (ev_attr E) (named_flavor fs)) as [f|x|x] eqn:Ef; cbn [bindR].
  - cbn [rc_core rc_traits]. pose proof (C42_failure E f it Hs Hl) as HF. destruct (walk_item E (ctx_new f) it counter0) as [[out c]|y|y]; cbn [bindR]; [exact I| |].
    + right. right. exists f. split; [exists fs; split; assumption|exact HF].
    + destruct HF as (Hm & s & Hi & Hu). split; [exact Hm|]. exists f, s. split; [exists fs; split; assumption|]. split; assumption.
  - right. left. exists fs. eauto.
  - exfalso. exact (C42_lookup _ Hl _ _ Ef).
Qed.
Print Assumptions C42_macro.

(** * The presets *)
(** what a preset puts in place of a target is the target followed by one method call: the text is fixed by the preset, whatever the program *)
Theorem C42_preset_text E ft p g s tr e' ts : at_path (preset_flavors ft) p g -> p <> ["empty"] -> word (ft_crate ft) ->
  Forall (fun x => match x with SNode es => es = [] | _ => True end) tr -> renders_to E (f_core g) s tr e' ts ->
  exists call, ts = etoks e' ++ call /\ a_call (preset_call p) call.
Proof.
  intros Hg Hp Hw Hq (c & n & Hc & Hr). destruct (quiet_renders E ft p g s tr e' c n Hg Hp Hw Hq Hc) as (call & H & Ha). exists call. split; [congruence|exact Ha].
Qed.
Print Assumptions C42_preset_text.
(** with a preset and without hooq attributes the expansion succeeds if [TARGET.method(|..| {..})] is an expression for every target.
    The law is about the parser only; it does not hold for every target ([C42_presets_refuted]). *)
Theorem C42_presets_partial E ft p g it : source it -> loads (ev_attr E) -> at_path (preset_flavors ft) p g -> word (ft_crate ft) ->
  (forall n, In n (item_nodes [] it) -> node_events (ev_attr E) (n_attrs n) []) ->
  (forall s tr e' call, In s (item_sites [] it) -> due E (f_core g) s tr e' -> a_call (preset_call p) call -> ev_parse E (etoks e' ++ call) <> None) ->
  exists out, expands E (f_core g) it out.
Proof.
  intros Hs Hl Hg Hw Hn Hp. apply (C42_presets_parse E ft p g it Hs Hl); [apply get_flavor_ok, Hg|exact Hn|].
  intros s tr e' ts Hin Hd Hr.
  assert (Hq : Forall (fun x => match x with SNode es => es = [] | _ => True end) tr).
  { destruct Hd as (Htr & _). destruct (fr_all (fun a => node_events (ev_attr E) a [])) as (_ & _ & HI & _).
    specialize (HI it [] Hs (Forall_nil _)). rewrite !Forall_forall in HI. eapply quiet_trail; [|exact Htr]. apply HI; [|exact Hin]. intros n Hnin. apply Hn, Hnin. }
  destruct (list_eq_dec string_dec p ["empty"]) as [->|Hne].
  - exfalso. destruct (preset_is ft _ g Hg) as [[_ ->]|(H & _)]; [|congruence]. destruct Hd as (_ & _ & _ & Hrule).
    assert (Ht : the_targets (f_core (empty_flavor ft)) tr = mk_switch false false false).
    { clear - Hq. induction Hq as [|x tr Hx Hq IH]; [reflexivity|]. unfold the_targets in *. destruct x; subst; cbn [innermost last_of]; exact IH. }
    destruct (s_kind s); cbn [rule] in Hrule; unfold question_rule, return_rule, tail_rule in Hrule; rewrite Ht in Hrule; cbn in Hrule; intuition congruence.
  - destruct (C42_preset_text E ft p g s tr e' ts Hg Hne Hw Hq Hr) as (call & -> & Ha). eapply Hp; eassumption.
Qed.
Print Assumptions C42_presets_partial.
(** syn rejects a method call after a cast ([x as T.log()]: "casts cannot be followed by a method call").  With any such parser, a function that
    returns [x as T] panics the macro under every preset but [empty]. *)
Definition no_call_after_cast (E : env) : Prop := forall a e ty name call, a_call name call -> ev_parse E (etoks (ECast a e (qi "as" :: ty)) ++ call) = None.
(** fn f() -> Result { x as T } *)
Definition x_cast : item := x_fn [] "f" x_result [tail (ECast [] (EPath [] (mk_path false [mk_seg "x" [] call_site])) [qi "as"; qi "T"])].
Theorem C42_presets_refuted : exists it, source it /\ Forall (fun n => n_attrs n = []) (item_nodes [] it) /\
  forall E ft p g, no_call_after_cast E -> at_path (preset_flavors ft) p g -> p <> ["empty"] -> word (ft_crate ft) ->
    walk_item E (ctx_new (f_core g)) it counter0 = Panic "parse_quote!".
Proof.
  exists x_cast. split; [reflexivity|]. split; [repeat constructor|]. intros E ft p g HE Hg Hp Hw.
  destruct (preset_is ft p g Hg) as [[-> _]|(_ & _ & _ & Ht & Hta & Hi & Hre & _)]; [congruence|].
  pose proof (fun c k n src ets q H => preset_renders (ev_str E) ft p g c k n src ets q Hg Hp Hw H) as HR.
  destruct (f_core g) as [tu m b ta ig re sw ma] eqn:Ec. cbn in Ht, Hta, Hi, Hre. subst.
  unfold x_cast, x_fn, tail.
  lazy -[render_toks etoks ts_span ev_parse ev_str].
  match goal with |- context[render_toks _ ?c ?k ?n ?src ?ets ?q] => destruct (HR c k n src ets q eq_refl (fun _ => eq_refl)) as (call & Hr & Ha); rewrite Hr end.
  rewrite (HE _ _ _ _ _ Ha). reflexivity.
Qed.
Print Assumptions C42_presets_refuted.

(** * Concrete cases *)
Definition x_read_paths (ts : list tt) : option (list path) := Some [].
(** [#[hooq(log::warn)]] expands; an unknown argument, an unknown flavor, and a text that is not an expression do not *)
Example C42_ex_macro : real_lookup (ev_attr xr_env) /\
  (exists out, hooq_impls x_read_paths xr_env [MPath (xa_path ["log"; "warn"])] x_plain = Ok out) /\
  (let args := [MList (xa_path ["traits"]) Parenth [] call_site] in bad_argument x_read_paths args /\ exists e, hooq_impls x_read_paths xr_env args x_plain = Err e) /\
  (let args := [MPath (xa_path ["log"; "none"])] in no_flavor (ev_attr xr_env) args /\ exists e, hooq_impls x_read_paths xr_env args x_plain = Err e) /\
  hooq_impls x_read_paths (mk_env (ev_attr xr_env) (fun _ => None) (ev_str xr_env)) [] x_plain = Panic "parse_quote!".
Proof.
  split; [exact (proj1 C42_ex_lookup)|]. split; [eexists; vm_compute; reflexivity|]. split.
  { split; [|eexists; vm_compute; reflexivity]. eexists. split; [left; reflexivity|]. intros Hf. apply (form_step _ _ (mk_root [] None)) in Hf. destruct Hf as (r & Hr). vm_compute in Hr. discriminate. }
  split; [|vm_compute; reflexivity]. split; [|eexists; vm_compute; reflexivity].
  exists [Some ["log"; "none"]]. split; [constructor; [|constructor]|eexists; vm_compute; reflexivity].
  refine (af_path (xa_path ["log"; "none"]) _ _); [|discriminate]. repeat constructor; vm_compute; congruence.
Qed.
(** a parser that rejects what starts like a cast satisfies the law of the refutation, and is not silly: it reads the other targets *)
Definition x_cast_parse (ts : list tt) : option expr :=
  if existsb (fun t => match t with TIdent s _ => String.eqb s "as" | _ => false end) ts then None else Some (EVerbatim ts).
Definition xc_env : env := mk_env (ev_attr xr_env) x_cast_parse (ev_str xr_env).
Example C42_ex_cast : no_call_after_cast xc_env /\ word (ft_crate x_features) /\
  walk_item xc_env (ctx_new (f_core (default_flavor x_features))) x_cast counter0 = Panic "parse_quote!" /\
  exists out, expands xc_env (f_core (default_flavor x_features)) x_plain out.
Proof.
  split; [|split; [vm_compute; intuition discriminate|split; [vm_compute; reflexivity|eexists; eexists; vm_compute; reflexivity]]].
  intros a e ty name call _. unfold xc_env, x_cast_parse. cbn [ev_parse etoks]. rewrite !existsb_app. cbn. rewrite !orb_true_r. reflexivity.
Qed.
(** the text of a preset at the first [?] of [x_plain] *)
Example C42_ex_text : let f := f_core (default_flavor x_features) in let s := site_of x_plain 0 in
  exists ts call, renders_to x_env f s [] (s_target s) ts /\ ts = etoks (s_target s) ++ call /\ a_call "inspect_err" call.
Proof.
  cbv zeta. assert (Hg : at_path (preset_flavors x_features) ["default"] (default_flavor x_features)) by (apply get_flavor_ok; vm_compute; reflexivity).
  assert (H : exists ts, renders_to x_env (f_core (default_flavor x_features)) (site_of x_plain 0) [] (s_target (site_of x_plain 0)) ts).
  { eexists. exists (ctx_new (f_core (default_flavor x_features))), 1. split; [apply effect_root|vm_compute; reflexivity]. }
  destruct H as (ts & H). destruct (C42_preset_text x_env x_features ["default"] (default_flavor x_features) _ _ _ _ Hg ltac:(discriminate) ltac:(vm_compute; intuition discriminate) ltac:(constructor) H) as (call & Ht & Ha).
  exists ts, call. auto.
Qed.
