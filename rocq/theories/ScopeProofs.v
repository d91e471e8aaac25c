(** Facts about the nodes that enclose a position, used by the scope properties.  *)
From Coq Require Import String Ascii Bool Arith Lia List.
From Verif Require Import Base Tokens Method Paths Context Flavor Attrs Syntax FlavorSpec MapFacts AttrSpec SiteSpec ProgSpec SettingSpec WalkSpec.
Import ListNotations.
Open Scope string_scope.
Open Scope list_scope.

(** ** Skipping *)
Definition no_scope (l : list step) : Prop := ~ In SScope l.
Definition no_skip_all (l : list step) : Prop := forall es, In (SNode es) l -> node_skip_all es = false.
(** every node that says skip also says skip_all *)
Definition no_skip_only (l : list step) : Prop := forall es, In (SNode es) l -> node_skip es = true -> node_skip_all es = true.
(** the events of a node but for skip *)
Definition without_skip (es : list event) : list event := filter (fun e => negb (is_skip e)) es.

Lemma skipped_here pre es post : no_scope pre -> node_skip es = true \/ node_skip_all es = true -> skipped (pre ++ SNode es :: post) = true.
Proof.
  intros Hn He. induction pre as [|x pre IH]; cbn [app skipped].
  - destruct He as [->| ->]; [rewrite orb_true_r|]; reflexivity.
  - assert (IH' : skipped (pre ++ SNode es :: post) = true) by (apply IH; intros H; apply Hn; now right).
    destruct x; try exact IH'; [rewrite IH'; apply orb_true_r|]. exfalso. apply Hn. now left.
Qed.
Lemma skip_all_below pre es post : no_skip_only pre -> node_skip_all es = true -> skip_all_holds (pre ++ SNode es :: post) = true.
Proof.
  intros Hn He. induction pre as [|x pre IH]; cbn [app skip_all_holds]; [now rewrite He|].
  assert (IH' : skip_all_holds (pre ++ SNode es :: post) = true) by (apply IH; intros es' H; apply Hn; now right).
  destruct x; try exact IH'. destruct (node_skip_all es0) eqn:E; [reflexivity|]. destruct (node_skip es0) eqn:E2; [|exact IH'].
  rewrite (Hn es0 (or_introl eq_refl) E2) in E. discriminate.
Qed.
Lemma skip_all_skips tr : skip_all_holds tr = true -> skipped tr = true.
Proof.
  induction tr as [|x tr IH]; [discriminate|]. cbn [skip_all_holds skipped]. destruct x; auto.
  destruct (node_skip_all es); [reflexivity|]. destruct (node_skip es); [discriminate|]. intros H. rewrite (IH H). reflexivity.
Qed.
Lemma no_skip_all_holds tr : no_skip_all tr -> skip_all_holds tr = false.
Proof.
  induction tr as [|x tr IH]; intros H; [reflexivity|]. assert (IH' := IH (fun es Hi => H es (or_intror Hi))). cbn [skip_all_holds].
  destruct x; auto. rewrite (H es (or_introl eq_refl)). destruct (node_skip es); [reflexivity|exact IH'].
Qed.
Lemma holds_swap pre a b : skip_all_holds a = skip_all_holds b -> skip_all_holds (pre ++ a) = skip_all_holds (pre ++ b).
Proof. intros H. induction pre as [|x pre IH]; [exact H|]. cbn [app skip_all_holds]. destruct x; rewrite ?IH; reflexivity. Qed.
Lemma skipped_swap pre a b : skip_all_holds a = skip_all_holds b -> skipped a = skipped b -> skipped (pre ++ a) = skipped (pre ++ b).
Proof. intros H H2. induction pre as [|x pre IH]; [exact H2|]. cbn [app skipped]. destruct x; rewrite ?IH; try reflexivity. now apply holds_swap. Qed.
Lemma without_skip_none es : node_skip (without_skip es) = false.
Proof. unfold node_skip, without_skip. induction es as [|e es IH]; [reflexivity|]. cbn [filter]. destruct (is_skip e) eqn:E; cbn [negb]; [exact IH|]. cbn [existsb]. rewrite E. exact IH. Qed.
Lemma without_skip_all es : node_skip_all (without_skip es) = node_skip_all es.
Proof. unfold node_skip_all, without_skip. induction es as [|e es IH]; [reflexivity|]. cbn [filter existsb]. destruct e; cbn [is_skip negb existsb is_skip_all]; rewrite ?IH; reflexivity. Qed.
(** a skip has no influence below the next scope, unless it hides a skip_all around it *)
Lemma skip_forgotten pre mid es post : node_skip_all es = true \/ no_skip_all post ->
  skipped (pre ++ SScope :: mid ++ SNode es :: post) = skipped (pre ++ SScope :: mid ++ SNode (without_skip es) :: post).
Proof.
  intros H. assert (Hh : skip_all_holds (SNode es :: post) = skip_all_holds (SNode (without_skip es) :: post)).
  { cbn [skip_all_holds]. rewrite without_skip_all, without_skip_none. destruct H as [->|H]; [reflexivity|]. rewrite (no_skip_all_holds _ H). destruct (node_skip_all es), (node_skip es); reflexivity. }
  apply skipped_swap; cbn [skip_all_holds skipped]; now apply holds_swap.
Qed.

(** ** Settings *)
Lemma innermost_swap {A} (g : list event -> option A) root pre es es' post : g es = g es' ->
  innermost g root (pre ++ SNode es :: post) = innermost g root (pre ++ SNode es' :: post).
Proof. intros H. induction pre as [|x pre IH]; cbn [app innermost]; [now rewrite H|]. destruct x; rewrite ?IH; reflexivity. Qed.
Lemma innermost_at {A} (g : list event -> option A) root pre es post v : (forall es', In (SNode es') pre -> g es' = None) -> g es = Some v ->
  innermost g root (pre ++ SNode es :: post) = v.
Proof.
  intros Hn Hv. induction pre as [|x pre IH]; cbn [app innermost]; [now rewrite Hv|]. assert (IH' := IH (fun es' H => Hn es' (or_intror H))).
  destruct x; try exact IH'. now rewrite (Hn es0 (or_introl eq_refl)).
Qed.
Lemma innermost_root {A} (g : list event -> option A) root tr : (forall es', In (SNode es') tr -> g es' = None) -> innermost g root tr = root.
Proof.
  intros Hn. induction tr as [|x tr IH]; [reflexivity|]. assert (IH' := IH (fun es' H => Hn es' (or_intror H))). cbn [innermost]. destruct x; try exact IH'.
  now rewrite (Hn es (or_introl eq_refl)).
Qed.
Lemma innermost_drop {A} (g : list event -> option A) root pre es post : g es = None -> innermost g root (pre ++ SNode es :: post) = innermost g root (pre ++ post).
Proof. intros H. induction pre as [|x pre IH]; cbn [app innermost]; [now rewrite H|]. destruct x; rewrite ?IH; reflexivity. Qed.

Lemma last_of_skip {A} (g : event -> option A) es : g EvSkip = None -> last_of g (without_skip es) = last_of g es.
Proof.
  intros H. unfold last_of, without_skip. induction es as [|e es IH]; [reflexivity|]. cbn [filter map last_some]. destruct (is_skip e) eqn:E; cbn [negb map last_some]; rewrite <- IH; [|reflexivity].
  destruct e; try discriminate E. rewrite H. destruct (last_some _); reflexivity.
Qed.
Lemma binds_skip es : flat_map ev_binds (without_skip es) = flat_map ev_binds es.
Proof. induction es as [|e es IH]; [reflexivity|]. cbn [without_skip filter flat_map]. fold (without_skip es). destruct e; cbn [is_skip negb flat_map ev_binds app]; rewrite ?IH; reflexivity. Qed.
Lemma after_none es : last_of ev_assigned es = None -> after_assigned es = es.
Proof.
  unfold last_of. destruct es as [|e r]; [reflexivity|]. cbn [map last_some after_assigned]. destruct (last_some (map ev_assigned r)); [discriminate|]. destruct (ev_assigned e); [discriminate|reflexivity].
Qed.
Lemma after_skip es : after_assigned (without_skip es) = without_skip (after_assigned es).
Proof.
  induction es as [|e es IH]; [reflexivity|]. pose proof (last_of_skip ev_assigned es eq_refl) as Hl. unfold last_of in Hl. cbn [without_skip filter]. fold (without_skip es).
  destruct (is_skip e) eqn:E; cbn [negb].
  - rewrite IH. destruct e; try discriminate E. cbn [after_assigned ev_assigned]. destruct (last_some (map ev_assigned es)) eqn:El; [reflexivity|].
    rewrite after_none by exact El. reflexivity.
  - cbn [after_assigned]. rewrite Hl. destruct (last_some (map ev_assigned es)); [exact IH|]. destruct (ev_assigned e); [reflexivity|]. cbn [without_skip filter]. rewrite E. reflexivity.
Qed.
Lemma ignores_skip es : node_ignores (without_skip es) = node_ignores es.
Proof.
  unfold node_ignores. rewrite after_skip. pose proof (last_of_skip ev_assigned es eq_refl) as Hl. unfold last_of in Hl. rewrite Hl.
  assert (Hf : forall l, flat_map ev_listed (without_skip l) = flat_map ev_listed l).
  { induction l as [|e l IH]; [reflexivity|]. cbn [without_skip filter flat_map]. fold (without_skip l). destruct e; cbn [is_skip negb flat_map ev_listed app]; rewrite ?IH; reflexivity. }
  assert (Hx : forall l, existsb ev_touches (without_skip l) = existsb ev_touches l).
  { induction l as [|e l IH]; [reflexivity|]. cbn [without_skip filter existsb]. fold (without_skip l). destruct e; cbn [is_skip negb existsb ev_touches orb]; rewrite ?IH; reflexivity. }
  rewrite Hf, Hx. reflexivity.
Qed.
Lemma returns_swap pre es es' post : returns (pre ++ SNode es :: post) = returns (pre ++ SNode es' :: post).
Proof. induction pre as [|x pre IH]; [reflexivity|]. cbn [app returns]. destruct x; try exact IH; reflexivity. Qed.
Lemma reached_swap f pre es es' post : last_of ev_macros es = last_of ev_macros es' -> reached f (pre ++ SNode es :: post) = reached f (pre ++ SNode es' :: post).
Proof.
  intros H. induction pre as [|x pre IH]; [reflexivity|]. cbn [app reached]. destruct x; try exact IH; [|reflexivity].
  unfold the_macros. rewrite (innermost_swap (last_of ev_macros) (fl_macros f) pre es es' post H), IH. reflexivity.
Qed.
(** the rule for a position with a skip left out *)
Lemma rule_skip f pre es post k v : skipped (pre ++ SNode es :: post) = skipped (pre ++ SNode (without_skip es) :: post) ->
  (rule f (pre ++ SNode es :: post) k v <-> rule f (pre ++ SNode (without_skip es) :: post) k v).
Proof.
  intros H. set (tr := pre ++ SNode es :: post) in *. set (tr' := pre ++ SNode (without_skip es) :: post) in *.
  assert (H1 : the_targets f tr = the_targets f tr') by (apply innermost_swap; symmetry; now apply last_of_skip).
  assert (H2 : the_tails f tr = the_tails f tr') by (apply innermost_swap; symmetry; now apply last_of_skip).
  assert (H3 : the_ignores f tr = the_ignores f tr') by (apply innermost_swap; symmetry; apply ignores_skip).
  assert (H4 : the_results f tr = the_results f tr') by (apply innermost_swap; symmetry; now apply last_of_skip).
  assert (H5 : returns tr = returns tr') by apply returns_swap.
  destruct k; cbn [rule]; unfold question_rule, return_rule, tail_rule, fallible; rewrite H, H1, ?H2, ?H3, ?H4, ?H5; reflexivity.
Qed.
