(** The rules and counts of a kind depend on its own switch only.  *)
From Coq Require Import String Ascii Bool Arith Lia List.
From Verif Require Import Base Tokens Method Paths Context Flavor Attrs Syntax RenderSpec AttrSpec SiteSpec ProgSpec SettingSpec Walker WalkSpec KindSpec.
Import ListNotations.
Open Scope string_scope.
Open Scope list_scope.

Lemma innermost_root {A} (h : list event -> option A) tr : forall x y, (x = y -> innermost h x tr = innermost h y tr).
Proof. intros x y ->. reflexivity. Qed.
Lemma targets_agree f g k tr : on (fl_targets g) k = on (fl_targets f) k -> on (the_targets g tr) k = on (the_targets f tr) k.
Proof. intros H. unfold the_targets. induction tr as [|st tr IH]; [exact H|]. destruct st as [es| | | | |]; cbn [innermost]; try exact IH. destruct (last_of ev_targets es); [reflexivity|exact IH]. Qed.
Lemma macros_agree f g tr : same_but_targets f g -> the_macros g tr = the_macros f tr.
Proof. intros H. apply innermost_root, (sb_macros _ _ H). Qed.
Lemma reached_agree f g tr : same_but_targets f g -> reached g tr = reached f tr.
Proof. intros H. induction tr as [|st tr IH]; [reflexivity|]. destruct st; cbn [reached]; rewrite ?IH, ?(macros_agree f g tr H); reflexivity. Qed.
Lemma counted_agree f g tr k v : same_but_targets f g -> (counted g tr k v <-> counted f tr k v).
Proof.
  intros H. unfold counted, fallible, the_tails, the_ignores, the_results. rewrite (sb_tails _ _ H), (sb_ignores _ _ H), (sb_results _ _ H). reflexivity.
Qed.
Lemma rule_agree f g tr k v : same_but_targets f g -> on (fl_targets g) k = on (fl_targets f) k -> (rule g tr k v <-> rule f tr k v).
Proof.
  intros H Ho. pose proof (targets_agree f g k tr Ho) as Ht. pose proof (counted_agree f g tr k v H) as Hc.
  unfold rule, question_rule, return_rule, tail_rule, counted in *. destruct k; cbn [on] in *; rewrite Ht; tauto.
Qed.
Lemma unreached_agree E f g fr : same_but_targets f g -> (unreached E g fr <-> unreached E f fr).
Proof.
  intros H. unfold unreached. split; (intros [Hd|(pre & post & tr & H1 & H2 & H3)]; [left; exact Hd|right; exists pre, post, tr; split; [exact H1|split; [exact H2|]]]).
  - rewrite <- (macros_agree f g tr H). exact H3.
  - rewrite (macros_agree f g tr H). exact H3.
Qed.
Lemma form_agree E f g v : same_but_targets f g -> keeps_form E f v -> keeps_form E g v.
Proof. intros H [Hk|(H1 & H2 & H3)]; [left; exact Hk|right]. split; [exact H1|]. split; [rewrite (sb_method _ _ H); exact H2|exact H3]. Qed.
Lemma tally_agree E f g k l m : same_but_targets f g -> tally E f k l m -> tally E g k l m.
Proof.
  intros H HT. induction HT.
  - constructor.
  - eapply ta_yes; try eassumption; [rewrite (reached_agree f g tr H); assumption|apply (counted_agree f g tr _ _ H); assumption].
  - eapply ta_no; try eassumption. rewrite (reached_agree f g tr H), (counted_agree f g tr _ _ H). assumption.
  - eapply ta_unreached; [|assumption]. apply (unreached_agree E f g _ H). assumption.
Qed.

