(** The text of a hook follows from the enclosing nodes.  *)
From Coq Require Import String Ascii Bool Arith NArith Lia Permutation Sorted List.
From Verif Require Import Base Tokens Method Paths Context Flavor Attrs Syntax Render Walker RootAttr MapFacts RenderSpec RenderProofs RenderVarProofs AttrSpec SiteSpec ProgSpec SettingSpec SettingProofs WalkSpec WalkProofs TextSpec.
Import ListNotations.
Open Scope string_scope.
Open Scope list_scope.

Lemma stack_mono (V W : string -> list tt -> Prop) : (forall n v, is_so_far n = false -> V n v -> W n v) -> forall l out, stack_exp V l out -> stack_exp W l out.
Proof.
  intros H l. induction l as [|t l IH]; intros out; [auto|]. cbn [stack_exp]. apply filled_ext. intros n v _ [[E Hx]|[E Hx]]; [left|right]; auto.
Qed.

Section Text.
  Variable ts_str : list tt -> string.
  Variable f : fcore.
  Variable tr : list step.
  Variable c : ctx.
  Variable k : kind.
  Variable count : nat.
  Variable source ets : list tt.
  Variable q : span.
  Hypothesis He : in_effect f tr c.
  Hypothesis Hn : NoDup (keys (fl_bindings f)).

  Lemma entries_at l : sorted_entries (fval (cx_bindings c)) l -> bindings_at f tr l.
  Proof.
    intros [HP HS]. assert (HN := ie_nodup _ _ _ He Hn). split.
    { unfold keys in *. eapply Permutation_NoDup; [apply Permutation_map; exact HP|exact HN]. }
    split; [exact HS|]. intros x v. rewrite <- (ie_bindings _ _ _ He). split.
    - intros Hin. apply in_mget; [exact HN|]. eapply Permutation_in; [symmetry; exact HP|exact Hin].
    - intros H. apply mget_in in H. eapply Permutation_in; [exact HP|exact H].
  Qed.

  Lemma value_at n v : value ts_str c k count source ets q n v -> var_at ts_str f tr k count source ets q n v.
  Proof.
    induction 1 as [|n Hi| |x Hx| | |n ds suf Hi Hd Hen|n Hi|n Hi|n l ts Hi Hs Hr|n ts line column path file cnt bs Hi H1 IH1 H2 IH2 H3 IH3 H4 IH4 H5 IH5 H6 IH6 Hr|n v Hb Hg].
    - constructor.
    - now constructor.
    - constructor.
    - now constructor.
    - constructor.
    - constructor.
    - now apply va_count.
    - pose proof (ie_name _ _ _ He) as H. pose proof (va_fn_name ts_str f tr k count source ets q n Hi) as Hv. rewrite <- H in Hv.
      destruct (fval (cx_fn c)) as [[]|]; exact Hv.
    - pose proof (ie_sig _ _ _ He) as H. pose proof (va_fn_sig ts_str f tr k count source ets q n Hi) as Hv. rewrite <- H in Hv.
      destruct (fval (cx_fn c)) as [[]|]; exact Hv.
    - eapply va_bindings; [exact Hi|apply entries_at; exact Hs|exact Hr].
    - eapply va_meta; eassumption.
    - apply va_binding; [exact Hb|]. rewrite <- (ie_bindings _ _ _ He). exact Hg.
  Qed.

  Lemma plain_at n v : is_so_far n = false -> RenderVarProofs.plain ts_str c k count source ets q n v -> var_at ts_str f tr k count source ets q n v.
  Proof. intros Hs H. apply value_at. eapply meta_var_value; eassumption. Qed.

  Lemma render_at ts : render_toks ts_str c k count source ets q = Ok ts -> hook_text ts_str f tr k count source ets q ts.
  Proof.
    intros H. unfold render_toks in H. apply bindR_Ok in H. destruct H as (body & Hb & H).
    assert (Hm := ie_method _ _ _ He).
    assert (Ht : method_text ts_str f tr k count source ets q (map (set_span q) body)).
    { exists body. split.
      - apply so_far_stack in Hb. rewrite (ie_methods _ _ _ He) in Hb. eapply stack_mono; [|exact Hb]. apply plain_at.
      - unfold nospan. rewrite map_map. apply map_ext. intros []; reflexivity. }
    destruct (fval (cx_method c)) eqn:Ef; inversion H; subst ts; [eapply ht_insert|eapply ht_replace]; eauto.
  Qed.
End Text.
