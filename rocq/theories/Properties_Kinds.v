(** Properties of hook_targets across expansions: C47.

    The same item is expanded with two root flavors that differ in hook_targets only. *)
From Coq Require Import String Ascii Bool Arith Lia List.
From Verif Require Import Base Tokens Method Paths Context Flavor Attrs Syntax Render Walker RenderSpec AttrSpec SiteSpec ProgSpec BareProofs AccountProofs SettingSpec WalkSpec WalkProofs TextSpec ShapeProofs HookProofs KindSpec KindProofs Properties_Attrs Properties_Hooks Properties_Count WalkExamples.
Import ListNotations.
Open Scope string_scope.
Open Scope list_scope.

(** * C47: switching a kind on or off does not change the hooks of the other kinds *)
(** the same positions are hooked.  Full statement: without the last hypothesis.  Missing: a value [e?] or [(e?)(..)] when a method ending in [!] is in
    use, see [C47_refuted] *)
Theorem C47_hooked_partial E f g it out out2 i s s' s2 :
  same_but_targets f g -> expands E f it out -> expands E g it out2 -> source it ->
  nth_error (item_sites [] it) i = Some s -> nth_error (item_sites [] out) i = Some s' -> nth_error (item_sites [] out2) i = Some s2 ->
  on (fl_targets g) (s_kind s) = on (fl_targets f) (s_kind s) -> s_kind s = KTry \/ keeps_form E f (s_target s) ->
  (hooked s2 <-> hooked s').
Proof.
  intros Hsame H1 H2 Hs Hi Ho Ho2 Hon Hk.
  assert (P1 : position it out s s') by (exists i; auto). assert (P2 : position it out2 s s2) by (exists i; auto).
  assert (Hk2 : s_kind s = KTry \/ keeps_form E g (s_target s)) by (destruct Hk as [Hk|Hk]; [left; exact Hk|right; exact (form_agree E f g _ Hsame Hk)]).
  destruct (position_cases E f it out s s' H1 Hs P1) as [(tr & Ht & Hr)|Hu].
  - rewrite (position_rule_source E f it out s s' H1 Hs P1 tr Ht Hk), (position_rule_source E g it out2 s s2 H2 Hs P2 tr Ht Hk2).
    rewrite (reached_agree f g tr Hsame), (rule_agree f g tr _ _ Hsame Hon). reflexivity.
  - unfold hooked. rewrite (position_unreached E f it out s s' H1 Hs P1 Hu), (position_unreached E g it out2 s s2 H2 Hs P2 (proj2 (unreached_agree _ f g _ Hsame) Hu)). tauto.
Qed.
Print Assumptions C47_hooked_partial.
(** with the same count *)
Theorem C47_count_partial E f g it out out2 i s s' s2 h r h2 r2 :
  same_but_targets f g -> expands E f it out -> expands E g it out2 -> source it ->
  nth_error (item_sites [] it) i = Some s -> nth_error (item_sites [] out) i = Some s' -> nth_error (item_sites [] out2) i = Some s2 ->
  s_hook s' = Some (h, r) -> s_hook s2 = Some (h2, r2) -> s_kind s = KTry \/ Forall (fun s => keeps_form E f (s_target s)) (item_sites [] it) ->
  h_count h2 = h_count h.
Proof.
  intros Hsame H1 H2 Hs Hi Ho Ho2 Hh Hh2 Hk.
  destruct (C10_count_source E f it out i s s' h r H1 Hs Hi Ho Hh Hk) as (m & Hm & ->).
  destruct (C10_count_source E g it out2 i s s2 h2 r2 H2 Hs Hi Ho2 Hh2) as (m2 & Hm2 & ->).
  { destruct Hk as [Hk|Hk]; [left; exact Hk|right]. eapply Forall_impl; [|exact Hk]. cbv beta. intros x. apply form_agree, Hsame. }
  f_equal. apply (tally_agree _ f g) in Hm; [|exact Hsame]. eapply C10_unique; eassumption.
Qed.
Print Assumptions C47_count_partial.
(** and with the same settings *)
Theorem C47_settings E f g it out out2 i s s' s2 h r h2 r2 :
  same_but_targets f g -> expands E f it out -> expands E g it out2 -> source it ->
  nth_error (item_sites [] it) i = Some s -> nth_error (item_sites [] out) i = Some s' -> nth_error (item_sites [] out2) i = Some s2 ->
  s_hook s' = Some (h, r) -> s_hook s2 = Some (h2, r2) ->
  h_kind h2 = h_kind h /\ h_source h2 = h_source h /\ h_consumed h2 = h_consumed h /\
  chain (cx_method (h_ctx h2)) = chain (cx_method (h_ctx h)) /\ (forall x, mget x (fval (cx_bindings (h_ctx h2))) = mget x (fval (cx_bindings (h_ctx h)))) /\
  get_fn_name (h_ctx h2) = get_fn_name (h_ctx h) /\ get_fn_sig (ev_str E) (h_ctx h2) = get_fn_sig (ev_str E) (h_ctx h).
Proof.
  intros Hsame H1 H2 Hs Hi Ho Ho2 Hh Hh2.
  assert (P1 : position it out s s') by (exists i; auto). assert (P2 : position it out2 s s2) by (exists i; auto).
  destruct (hook_trail E f it out s s' H1 Hs P1 h r Hh) as (tr & Ht & _).
  destruct (hook_made E f it out s s' H1 Hs P1 tr h r Ht Hh) as [K1 I1 _ S1 C1 _]. destruct (hook_made E g it out2 s s2 H2 Hs P2 tr h2 r2 Ht Hh2) as [K2 I2 _ S2 C2 _].
  destruct (C01_settings E f it out s s' tr h r H1 Hs P1 Ht Hh) as (_ & B1 & N1 & G1). destruct (C01_settings E g it out2 s s2 tr h2 r2 H2 Hs P2 Ht Hh2) as (_ & B2 & N2 & G2).
  rewrite K1, K2, S1, S2, C1, C2, N1, N2, G1, G2, (ie_methods _ _ _ I1), (ie_methods _ _ _ I2). repeat apply conj; try reflexivity.
  - unfold the_method. rewrite (innermost_root _ tr _ _ (sb_method _ _ Hsame)). reflexivity.
  - induction tr as [|st tr' IH]; [cbn [all_methods]; rewrite (sb_method _ _ Hsame); reflexivity|].
    clear - Hsame. revert st tr'. assert (forall tr, all_methods g tr = all_methods f tr) as Ha; [|intros; apply Ha].
    induction tr as [|st tr IH]; cbn [all_methods]; [rewrite (sb_method _ _ Hsame); reflexivity|]. destruct st; try exact IH. destruct (last_of ev_method es); [f_equal|]; exact IH.
  - intros x. rewrite B1, B2. unfold the_binding. rewrite (sb_bindings _ _ Hsame). reflexivity.
Qed.
Print Assumptions C47_settings.

(** [return a()?] in a function without return type, the [?] replaced by [Err()]: with [question] switched off the [return] is not hooked any more *)
Definition kd_core : fcore := mk_fcore (fl_traits xd_core) (fl_method xd_core) (mk_switch false true true) (fl_tails xd_core) (fl_ignores xd_core) (fl_results xd_core) (fl_macros xd_core) (fl_bindings xd_core).
Theorem C47_refuted : exists E f g it out out2 i s s' s2,
  same_but_targets f g /\ expands E f it out /\ expands E g it out2 /\ source it /\
  nth_error (item_sites [] it) i = Some s /\ nth_error (item_sites [] out) i = Some s' /\ nth_error (item_sites [] out2) i = Some s2 /\
  s_kind s = KReturn /\ on (fl_targets g) KReturn = on (fl_targets f) KReturn /\ hooked s' /\ ~ hooked s2.
Proof.
  exists xd_env, xd_core, kd_core, xd_main, xd_out, (out_of xd_env kd_core xd_main), 1, (site_of xd_main 1), (site_of xd_out 1), (site_of (out_of xd_env kd_core xd_main) 1).
  split; [constructor; reflexivity|]. split; [exact xd_expands|]. split; [eexists; vm_compute; reflexivity|]. split; [reflexivity|].
  repeat (split; [vm_compute; reflexivity|]). split; [discriminate|]. intros H. apply H. vm_compute. reflexivity.
Qed.
Print Assumptions C47_refuted.

(** the example of C01 with [return] switched off *)
Definition k_core : fcore :=
  {| fl_traits := []; fl_method := fl_method x_core; fl_targets := mk_switch true false true;
     fl_tails := ["Err"]; fl_ignores := ["Ok"]; fl_results := ["Result"]; fl_macros := true; fl_bindings := [("k", [qi "v"])] |}.
Example C47_ex : same_but_targets x_core k_core /\ expands x_env x_core x_main x_out /\ expands x_env k_core x_main (out_of x_env k_core x_main) /\ source x_main /\
  Forall (fun s => keeps_form x_env x_core (s_target s)) (item_sites [] x_main) /\
  summary (out_of x_env k_core x_main) = map (fun p => match p with (KReturn, _) => (KReturn, None) | _ => p end) (summary x_out) /\
  In (KReturn, Some 1) (summary x_out).
Proof.
  split; [constructor; reflexivity|]. split; [apply x_expands|]. split; [eexists; vm_compute; reflexivity|]. split; [reflexivity|]. split; [|split].
  - apply Forall_forall. intros s _. right. split; [reflexivity|]. split; [reflexivity|]. intros l g Hg. clear s. cbn in Hg.
    repeat match type of Hg with context [match ?b with _ => _ end] => destruct b end; try discriminate; inversion Hg; reflexivity.
  - vm_compute. reflexivity.
  - vm_compute. tauto.
Qed.
