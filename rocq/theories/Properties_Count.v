(** Properties of [$count]: C10, C11.  The positions of an item are listed in evaluation order (SiteSpec.v, C01_positions, C02_positions). *)
From Coq Require Import String Ascii Bool Arith Lia Sorted List.
From Verif Require Import Base Tokens Method Paths Context Flavor Attrs Syntax Render Walker RootAttr RenderSpec AttrSpec SiteSpec ProgSpec AccountProofs SettingSpec WalkSpec WalkProofs HookProofs Properties_Attrs WalkExamples Properties_Hooks.
Import ListNotations.
Open Scope string_scope.
Open Scope list_scope.

(** * C10: numbering *)
(** the count of a hook: one more than the number of unskipped positions of its kind before it ([tally], WalkSpec.v).  Whether a [return] or a tail counts is told by
    its value as it stands in the output, as in [C02_return_seen] and [C03_tail_seen] *)
Theorem C10_count E f it out i s s' h r :
  expands E f it out -> source it -> nth_error (item_sites [] it) i = Some s -> nth_error (item_sites [] out) i = Some s' -> s_hook s' = Some (h, r) ->
  exists m, tally (ev_attr E) f (kind_of (s_kind s)) (firstn i (seen_sites it out)) m /\ h_count h = S m.
Proof.
  intros H Hs H1 H2 Hh. destruct (expands_treats E f it out H Hs) as (n & HT). destruct (treats_nth _ _ _ _ _ _ HT _ _ _ H1 H2) as (n1 & n2 & HT1 & Ht & _).
  destruct (treats_count_seen E f _ _ _ _ (kind_of (s_kind s)) HT1) as (m & Hm & Hc). exists m. split.
  - unfold seen_sites. rewrite firstn_map, combine_firstn. exact Hm.
  - destruct (treated_made E f _ _ _ _ _ _ Ht Hh) as (tr & _ & _ & _ & Hcount & Hn). rewrite Hcount, Hn, count_same, Hc. unfold counter0. destruct (kind_of (s_kind s)); reflexivity.
Qed.
Print Assumptions C10_count.
(** ... by its value as written, if that keeps its form: not a [e?] removed by a method ending in [!] *)
Theorem C10_count_source E f it out i s s' h r :
  expands E f it out -> source it -> nth_error (item_sites [] it) i = Some s -> nth_error (item_sites [] out) i = Some s' -> s_hook s' = Some (h, r) ->
  s_kind s = KTry \/ Forall (fun s => keeps_form E f (s_target s)) (item_sites [] it) ->
  exists m, tally (ev_attr E) f (kind_of (s_kind s)) (firstn i (item_sites [] it)) m /\ h_count h = S m.
Proof.
  intros H Hs H1 H2 Hh Hk. destruct (expands_treats E f it out H Hs) as (n & HT). destruct (treats_nth _ _ _ _ _ _ HT _ _ _ H1 H2) as (n1 & n2 & HT1 & Ht & _).
  destruct (treats_count E f _ _ _ _ (kind_of (s_kind s)) HT1) as (m & Hm & Hc).
  { destruct Hk as [->|Hk]; [now left|right]. rewrite Forall_forall in *. intros x Hx. apply Hk. rewrite <- (firstn_skipn i (item_sites [] it)). apply in_or_app. now left. }
  exists m. split; [exact Hm|]. destruct (treated_made E f _ _ _ _ _ _ Ht Hh) as (tr & _ & _ & _ & Hcount & Hn). rewrite Hcount, Hn, count_same, Hc. unfold counter0. destruct (kind_of (s_kind s)); reflexivity.
Qed.
Print Assumptions C10_count_source.
(** [return a()?; return Err();] in a function without return type, the [?] replaced by [Err()]: the second [return] is the 2nd, though the first is no position to hook as written *)
Definition xn_main : item := x_fn [] "main" RetNone [semi (x_ret (x_try (x_call "a" []))); semi (x_ret (x_call "Err" []))].
Theorem C10_source_refuted : exists E f it out i s s' h r,
  expands E f it out /\ source it /\ nth_error (item_sites [] it) i = Some s /\ nth_error (item_sites [] out) i = Some s' /\ s_hook s' = Some (h, r) /\
  tally (ev_attr E) f (kind_of (s_kind s)) (firstn i (item_sites [] it)) 0 /\ h_count h = 2.
Proof.
  exists xd_env, xd_core, xn_main, (out_of xd_env xd_core xn_main), 2, (site_of xn_main 2), (site_of (out_of xd_env xd_core xn_main) 2). eexists _, _.
  split; [eexists; vm_compute; reflexivity|]. split; [reflexivity|]. split; [reflexivity|]. split; [reflexivity|]. split; [vm_compute; reflexivity|]. split; [|reflexivity].
  change (firstn 2 (item_sites [] xn_main)) with [site_of xn_main 0; site_of xn_main 1].
  eapply ta_no; [cbn; t_trail|intros (Hk & _); discriminate|]. eapply ta_no; [cbn; t_trail| |constructor].
  intros (_ & _ & _ & [Hc|[(p & Hr & _) _]]); [|discriminate]. destruct Hc as (a & a2 & p & sp & es & cs & H & _). discriminate.
Qed.
Print Assumptions C10_source_refuted.
Theorem C10_unique env f k l m m' : tally env f k l m -> tally env f k l m' -> m = m'.
Proof. intros H. exact (fun H' => tally_unique f env k l m H m' H'). Qed.
Print Assumptions C10_unique.
(** strictly increasing *)
Theorem C10_increasing E f it out k : expands E f it out -> source it ->
  StronglySorted lt (map h_count (filter (fun h => kind_eqb (h_kind h) k) (hooks_of (item_subs out)))).
Proof.
  intros H Hs. rewrite (C01_all_hooks E f it out H Hs). destruct (expands_treats E f it out H Hs) as (n & HT). revert HT. generalize counter0, (item_sites [] it), (item_sites [] out).
  intros c l l' HT. induction HT as [|c s s' n1 l l' n2 Ht HT IH]; [constructor|]. cbn [flat_map]. destruct (s_hook s') as [[h r]|] eqn:Eh; [|exact IH]. cbn [app filter].
  destruct (kind_eqb (h_kind h) k) eqn:Ek; [|exact IH]. cbn [map]. constructor; [exact IH|]. rewrite Forall_forall. intros y Hy. apply in_map_iff in Hy. destruct Hy as (h2 & <- & Hy).
  apply filter_In in Hy. destruct Hy as [Hy Hk2]. apply in_flat_map in Hy. destruct Hy as (s2' & Hin & Hy). destruct (s_hook s2') as [[h3 r3]|] eqn:Eh2; [|destruct Hy]. destruct Hy as [<-|[]].
  apply In_nth_error in Hin. destruct Hin as (j & Hj). pose proof (treats_length _ _ _ _ _ _ HT) as Hl. destruct (nth_error l j) as [s2|] eqn:Ej.
  2:{ apply nth_error_None in Ej. assert (nth_error l' j <> None) by congruence. apply nth_error_Some in H0. lia. }
  eapply (treats_order E f c (s :: l) (s' :: l') n2 (ts_cons _ _ _ _ _ _ _ _ _ Ht HT) 0 (S j) s s2 s' s2'); try eassumption; try reflexivity; [lia|].
  apply kind_eqb_iff in Ek, Hk2. congruence.
Qed.
Print Assumptions C10_increasing.
(** 1, 2, 3, .. up to the number of unskipped positions, when the kind is switched on everywhere *)
Definition switched_on (w : switch) (k : kind) : bool := match k with Question => sw_question w | Return => sw_return w | TailExpr => sw_tail w end.
Theorem C10_numbers E f it out k : expands E f it out -> source it ->
  (forall s tr, In s (item_sites [] it) -> kind_of (s_kind s) = k -> trail (ev_attr E) (s_frames s) tr -> switched_on (the_targets f tr) k = true) ->
  exists n, map h_count (filter (fun h => kind_eqb (h_kind h) k) (hooks_of (item_subs out))) = seq 1 n /\ tally (ev_attr E) f k (seen_sites it out) n /\
            (k = Question \/ Forall (fun s => keeps_form E f (s_target s)) (item_sites [] it) -> tally (ev_attr E) f k (item_sites [] it) n).
Proof.
  intros H Hs Hon. rewrite (C01_all_hooks E f it out H Hs). destruct (expands_treats E f it out H Hs) as (n & HT). exists (get_count k n).
  assert (H0 : get_count k counter0 = 0) by (destruct k; reflexivity). split; [|split].
  - assert (HN := treats_numbers E f counter0 _ _ n k HT). rewrite H0, Nat.sub_0_r in HN. apply HN.
    intros s tr Hi Hk Ht. specialize (Hon s tr Hi Hk Ht). destruct k; exact Hon.
  - destruct (treats_count_seen E f _ _ _ _ k HT) as (m & Hm & Hc). rewrite Hc, H0. exact Hm.
  - intros Hk. destruct (treats_count E f _ _ _ _ k HT Hk) as (m & Hm & Hc). rewrite Hc, H0. exact Hm.
Qed.
Print Assumptions C10_numbers.
(** the second [?] of the example, [a(b()?)?], counts 2; [c()?] is skipped *)
Example C10_ex : nth_error (item_sites [] x_main) 4 = Some (site_of x_main 4) /\ nth_error (item_sites [] x_out) 4 = Some (site_of x_out 4) /\ hooked (site_of x_out 4) /\
  tally (ev_attr x_env) x_core Question (firstn 4 (item_sites [] x_main)) 3.
Proof.
  split; [reflexivity|]. split; [reflexivity|]. split; [discriminate|]. cbn [firstn].
  change (firstn 4 (item_sites [] x_main)) with [site_of x_main 0; site_of x_main 1; site_of x_main 2; site_of x_main 3].
  eapply ta_yes; [reflexivity|cbn; t_trail|reflexivity|split; [reflexivity|exact I]|]. eapply ta_yes; [reflexivity|cbn; t_trail|reflexivity|split; [reflexivity|exact I]|].
  eapply ta_yes; [reflexivity|cbn; t_trail|reflexivity|split; [reflexivity|exact I]|]. eapply ta_no; [cbn; t_trail|intros (_ & _ & Hs & _); discriminate|]. constructor.
Qed.
(** the first [return] of the refutation counts as it stands in the output *)
Example C10_ex_seen : tally (ev_attr xd_env) xd_core Return (firstn 2 (seen_sites xn_main (out_of xd_env xd_core xn_main))) 1 /\ hooked (site_of (out_of xd_env xd_core xn_main) 2).
Proof.
  split; [|discriminate]. eapply ta_no; [cbn; t_trail|intros (Hk & _); discriminate|]. eapply ta_yes; [reflexivity|cbn; t_trail|reflexivity| |constructor].
  split; [reflexivity|]. left. do 6 eexists. split; [reflexivity|]. exists [], (xa_seg "Err"). split; [reflexivity|cbn; tauto].
Qed.
Example C10_ex_numbers : map h_count (filter (fun h => kind_eqb (h_kind h) Question) (hooks_of (item_subs x_out))) = seq 1 7.
Proof. vm_compute. reflexivity. Qed.
(** positions whose kind is off are counted all the same: gaps *)
Example C10_ex_gap : let off := xa_list "hook_targets" ["return"] in
  summary (out_of x_env x_core (x_fn [] "f" RetNone [semi (x_try (x_call "a" [])); semi (x_try_a [off] (x_call "b" [])); semi (x_try (x_call "c" []))])) = [(KTry, Some 1); (KTry, None); (KTry, Some 3)].
Proof. vm_compute. reflexivity. Qed.

(** * C11: the count is per function *)
(** the innermost function around a position *)
Fixpoint fn_of (fr : list frame) : option sig := match fr with [] => None | FFn g :: _ => Some g | _ :: r => fn_of r end.
(** Full statement: [h_count h = S m] with [m] the number of unskipped positions of the kind before it in its function.  Proved for items with one function.
    Missing: an item with several, see [C11_refuted]: the count goes on. *)
Theorem C11_one_fn_partial E f it out i s s' h r g :
  expands E f it out -> source it -> (forall x, In x (item_sites [] it) -> fn_of (s_frames x) = g) ->
  nth_error (item_sites [] it) i = Some s -> nth_error (item_sites [] out) i = Some s' -> s_hook s' = Some (h, r) ->
  s_kind s = KTry \/ Forall (fun s => keeps_form E f (s_target s)) (item_sites [] it) ->
  exists l m, (forall x, In x l <-> In x (firstn i (item_sites [] it)) /\ fn_of (s_frames x) = fn_of (s_frames s)) /\
    tally (ev_attr E) f (kind_of (s_kind s)) l m /\ h_count h = S m.
Proof.
  intros H Hs Hg H1 H2 Hh Hk. destruct (C10_count_source E f it out i s s' h r H Hs H1 H2 Hh Hk) as (m & Hm & Hc). exists (firstn i (item_sites [] it)), m. split; [|auto].
  intros x. split; [|tauto]. intros Hx. split; [exact Hx|]. rewrite (Hg x), (Hg s); [reflexivity| |].
  - eapply nth_error_In, H1.
  - rewrite <- (firstn_skipn i (item_sites [] it)). apply in_or_app. now left.
Qed.
Print Assumptions C11_one_fn_partial.
(** mod m { fn f() { a()?; } fn g() { b()?; } }: the first [?] of [g] is the 2nd *)
Definition x_two : item := IMod [] [qi "mod"; qi "m"] call_site [x_fn [] "f" RetNone [semi (x_try (x_call "a" []))]; x_fn [] "g" RetNone [semi (x_try (x_call "b" []))]].
Theorem C11_refuted : exists E f it out s s' h r,
  expands E f it out /\ source it /\ position it out s s' /\ s_hook s' = Some (h, r) /\
  (forall x, In x (item_sites [] it) -> fn_of (s_frames x) = fn_of (s_frames s) -> x = s) /\ h_count h = 2.
Proof.
  exists x_env, x_core, x_two, (out_of x_env x_core x_two), (site_of x_two 1), (site_of (out_of x_env x_core x_two) 1). eexists _, _.
  split; [eexists; vm_compute; reflexivity|]. split; [reflexivity|]. split; [t_position 1|]. split; [vm_compute; reflexivity|]. split; [|reflexivity].
  intros x Hx. cbn in Hx. destruct Hx as [<-|[<-|[]]]; [intros Hf; discriminate|reflexivity].
Qed.
Print Assumptions C11_refuted.
Example C11_ex : (forall x, In x (item_sites [] x_main) -> fn_of (s_frames x) = Some (x_sig "main" x_result)) /\ length (item_sites [] x_main) = 11.
Proof. split; [|reflexivity]. intros x Hx. cbn in Hx. repeat destruct Hx as [<-|Hx]; try contradiction; reflexivity. Qed.
