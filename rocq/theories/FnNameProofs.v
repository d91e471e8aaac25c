(** The enclosing function of a position, spelled out.  *)
From Coq Require Import String Ascii Bool Arith List.
From Verif Require Import Base Tokens Method Paths Context Flavor Attrs Syntax AttrSpec SiteSpec SettingSpec.
Import ListNotations.
Open Scope string_scope.
Open Scope list_scope.

Definition is_fn_step (s : step) : Prop := exists g, s = SFn g.
Definition is_closure_step (s : step) : Prop := exists a hd o, s = SClosure a hd o.
Definition no_fn (l : list step) : Prop := forall s, In s l -> ~ is_fn_step s.
Definition no_callable (l : list step) : Prop := forall s, In s l -> ~ is_fn_step s /\ ~ is_closure_step s.
Lemma no_fn_nil : no_fn [].
Proof. intros s []. Qed.
Lemma nearest_skip pre post : no_fn pre -> nearest_fn (pre ++ post) = nearest_fn post.
Proof.
  induction pre as [|x pre IH]; intros H; [reflexivity|]. assert (IH' := IH (fun s Hs => H s (or_intror Hs))). destruct x; cbn [app nearest_fn]; try exact IH'.
  exfalso. apply (H (SFn s)); [now left|]. now exists s.
Qed.
Lemma name_skip pre post : no_callable pre -> fn_name (pre ++ post) = fn_name post.
Proof.
  induction pre as [|x pre IH]; intros H; [reflexivity|]. assert (IH' := IH (fun s Hs => H s (or_intror Hs))). destruct (H x) as [H1 H2]; [now left|].
  destruct x; cbn [app fn_name]; try exact IH'; exfalso; [apply H1|apply H2]; unfold is_fn_step, is_closure_step; eauto.
Qed.
Lemma sig_skip pre post : no_callable pre -> fn_sig (pre ++ post) = fn_sig post.
Proof.
  induction pre as [|x pre IH]; intros H; [reflexivity|]. assert (IH' := IH (fun s Hs => H s (or_intror Hs))). destruct (H x) as [H1 H2]; [now left|].
  destruct x; cbn [app fn_sig]; try exact IH'; exfalso; [apply H1|apply H2]; unfold is_fn_step, is_closure_step; eauto.
Qed.
Lemma nearest_none tr : no_fn tr -> nearest_fn tr = None.
Proof. intros H. rewrite <- (app_nil_r tr), nearest_skip by exact H. reflexivity. Qed.
