(** Properties of hooq attributes on one node: C17, C19, C20, C21.  *)
From Coq Require Import String Ascii Bool Arith Lia List.
From Verif Require Import Base Tokens Method Paths Context Flavor Attrs FlavorSpec MapFacts RenderProofs FlavorTomlProofs AttrSpec AttrProofs.
Import ListNotations.
Open Scope string_scope.
Open Scope list_scope.

(** * Examples: an environment with one flavor and a few attributes *)
Definition xa_core : fcore :=
  {| fl_traits := []; fl_method := Insert call_site [qi "log"] false; fl_targets := mk_switch true false true;
     fl_tails := ["Err"; "bail"]; fl_ignores := ["Fine"]; fl_results := ["Res"]; fl_macros := false; fl_bindings := [("k", [qi "v"])] |}.
Definition xa_env : attr_env :=
  mk_attr_env false (fun l => match l with ["my"] => Ok xa_core | _ => Err (ErrFlavorNotFound l ["my"]) end) (fun _ => None).
Definition xa_seg (s : string) : seg := mk_seg s [] call_site.
Definition xa_path (l : list string) : path := mk_path false (map xa_seg l).
Definition xa (m : meta) : attr := mk_attr false call_site m.
Definition xa_strs (l : list string) : list tt := flat_map (fun s => [TLit (LStr s) call_site; TPunct "," call_site]) l.
Definition xa_list (n : string) (l : list string) : attr := xa (MList (xa_path ["hooq"; n]) Parenth (xa_strs l) call_site).
Definition xa_set (n : string) (v : mvalue) : attr := xa (MNameValue (xa_path ["hooq"; n]) v).
Definition xa_word (l : list string) : attr := xa (MPath (xa_path l)).

(** * C17: processing a node removes exactly the attributes [hooq::<one segment>] *)
Theorem C17_kept env l c k s c' :
  handle_inert_attrs env l c = Ok (k, s, c') ->
  k = filter (fun a => negb match p_segs (meta_path (at_meta a)) with
                            | [x; _] => String.eqb (seg_id x) "hooq"
                            | _ => false
                            end) l.
Proof.
  unfold handle_inert_attrs. intros H. apply bindR_Ok in H. destruct H as ([i k'] & H1 & H2). inversion H2; subst. cbn [snd].
  apply extract_ok in H1. destruct H1 as (es & _ & _ & -> & _). reflexivity.
Qed.
Print Assumptions C17_kept.
(** a longer path under [hooq] is refused *)
Theorem C17_longer env l a x y z r :
  In a l -> p_segs (meta_path (at_meta a)) = x :: y :: z :: r -> seg_id x = "hooq" -> ~ exists i k, extract env l = Ok (i, k).
Proof.
  intros Hin Hp Hx (i & k & H). apply extract_ok in H. destruct H as (es & H & _). induction H as [|b l e es Hh Hr He IH|b l es Hh Hl He IH]; [contradiction| |].
  - destruct Hin as [->|Hin]; [|exact (IH Hin)]. unfold hooq_path in Hh. rewrite Hp in Hh. discriminate.
  - destruct Hin as [->|Hin]; [|exact (IH Hin)]. apply Hl. exists x, (y :: z :: r). split; [exact Hp|]. split; [exact Hx|]. simpl. lia.
Qed.
Print Assumptions C17_longer.
Example C17_ex :
  exists i, extract xa_env [xa_word ["inline"]; xa_list "tail_expr_idents" ["Err"]; xa_word ["rustfmt"; "skip"]; xa_word ["hooq"; "skip"]; xa_word ["hooq"]]
            = Ok (i, [xa_word ["inline"]; xa_word ["rustfmt"; "skip"]; xa_word ["hooq"]]).
Proof. eexists. vm_compute. reflexivity. Qed.
Example C17_longer_ex : extract xa_env [xa_word ["hooq"; "a"; "b"]] = Err ErrAttrPath.
Proof. reflexivity. Qed.

(** * C19: hook_targets lists *)
Theorem C19_targets l w :
  switch_try_from l = inl w <->
  Forall target_word l /\ forall k, on w k = true <-> exists s, In s l /\ word_for k s.
Proof. exact (switch_ok l w). Qed.
Print Assumptions C19_targets.
Theorem C19_order l l' w : (forall s, In s l <-> In s l') -> switch_try_from l = inl w -> switch_try_from l' = inl w.
Proof.
  intros He H. apply switch_ok in H. apply switch_ok. destruct H as [H1 H2]. rewrite Forall_forall in H1. split.
  - apply Forall_forall. intros s Hs. apply H1, He, Hs.
  - intros k. rewrite H2. split; intros (s & Hs & Hw); exists s; split; try apply He; assumption.
Qed.
Print Assumptions C19_order.
Theorem C19_unknown l s :
  switch_try_from l = inr s <-> exists pre post, l = pre ++ s :: post /\ Forall target_word pre /\ ~ target_word s.
Proof. exact (switch_from_err l _ s). Qed.
Print Assumptions C19_unknown.
(** the same through the attribute: what is written in [#[hooq::hook_targets(..)]] is what is switched on, or the error *)
Theorem C19_attribute env p d ts sp l i :
  plain_path p "hook_targets" -> string_list ts l ->
  (forall w, targets_of l w -> exists i', attr_step env i (MList p d ts sp) = Ok (i', false) /\ in_targets i' = Some w) /\
  (forall pre s post, l = pre ++ s :: post -> Forall target_word pre -> ~ target_word s ->
     attr_step env i (MList p d ts sp) = Err (ErrHookTargets s)).
Proof.
  intros Hp Hl. split.
  - intros w Hw. eexists. split; [apply step_complete; left; eapply mn_targets; eassumption|reflexivity].
  - intros pre s post He H1 H2. cbn [attr_step]. rewrite !(plain_neq _ _ _ Hp). cbn [String.eqb Ascii.eqb Bool.eqb].
    apply strings_res_spec in Hl. rewrite Hl. cbn [bindR].
    assert (Hs : switch_try_from l = inr s) by (apply (switch_from_err l); eauto). rewrite Hs. reflexivity.
Qed.
Print Assumptions C19_attribute.
Example C19_ex : targets_of ["return"; "?"; "return"] (mk_switch true true false) /\ switch_try_from ["?"; "tail"; "x"] = inr "tail".
Proof.
  split; [|reflexivity]. apply switch_ok. reflexivity.
Qed.
Example C19_attribute_ex :
  plain_path (xa_path ["hooq"; "hook_targets"]) "hook_targets" /\ string_list (xa_strs ["?"; "tail_expr"]) ["?"; "tail_expr"].
Proof. split; [exists call_site, call_site; reflexivity|]. cbn. repeat constructor. Qed.

(** * C20: tail_expr_idents and ignore_tail_expr_idents on one node *)
Theorem C20_tails env l i k :
  extract env l = Ok (i, k) ->
  exists es, node_events env l es /\
    in_tails i = last_some (map (fun e => match e with
                                          | EvTails l => Some (plain_names l)
                                          | EvTailsFrom t _ => Some t
                                          | EvFlavor f => Some (fl_tails f)
                                          | _ => None
                                          end) es).
Proof.
  intros H. apply extract_ok in H. destruct H as (es & H & S & _). exists es. split; [exact H|]. rewrite (sb_tails _ _ S). reflexivity.
Qed.
Print Assumptions C20_tails.
(** either some event assigns the list from a flavor: that list, then everything listed after it; or nothing was assigned: everything
    listed, if anything was *)
Theorem C20_ignores env l i k :
  extract env l = Ok (i, k) ->
  exists es, node_events env l es /\
    ((exists before e after b, es = before ++ e :: after /\ ev_assigned e = Some b /\ Forall (fun x => ev_assigned x = None) after /\
        in_ignores i = Some (b ++ flat_map ev_listed after)) \/
     (Forall (fun x => ev_assigned x = None) es /\
      in_ignores i = if existsb ev_touches es then Some (flat_map ev_listed es) else None)).
Proof.
  intros H. apply extract_ok in H. destruct H as (es & H & S & _). exists es. split; [exact H|]. rewrite (sb_ignores _ _ S). clear H S.
  assert (N : forall l, last_some (map ev_assigned l) = None -> Forall (fun x => ev_assigned x = None) l).
  { induction l0 as [|e l0 IH]; intros Hn; [constructor|]. cbn [map last_some] in Hn. destruct (last_some (map ev_assigned l0)) eqn:E; [discriminate|].
    constructor; auto. }
  unfold node_ignores. destruct (last_some (map ev_assigned es)) as [b|] eqn:El.
  - left. assert (G : exists before e, es = before ++ e :: after_assigned es /\ ev_assigned e = Some b /\ Forall (fun x => ev_assigned x = None) (after_assigned es)).
    { revert b El. induction es as [|e es IH]; intros b El; [discriminate|]. cbn [map last_some after_assigned] in *.
      destruct (last_some (map ev_assigned es)) as [b'|] eqn:E.
      - inversion El; subst. destruct (IH _ eq_refl) as (bf & e' & H1 & H2 & H3). exists (e :: bf), e'. split; [|auto]. cbn [app]. now rewrite <- H1.
      - rewrite El. exists [], e. split; [reflexivity|]. split; [exact El|]. apply N, E. }
    destruct G as (bf & e & G1 & G2 & G3). exists bf, e, (after_assigned es), b. auto.
  - right. split; [apply N, El|]. rewrite after_none by exact El. reflexivity.
Qed.
Print Assumptions C20_ignores.
(** and on the node's context: the inherited list stays exactly when nothing contributed *)
Theorem C20_inherited env l c k s c' es :
  handle_inert_attrs env l c = Ok (k, s, c') -> node_events env l es ->
  (forall e, In e es -> ev_assigned e = None /\ ev_listed e = [] /\ (forall x, e <> EvIgnores x)) -> cx_ignores c' = cx_ignores c.
Proof.
  unfold handle_inert_attrs. intros H He Hn. apply bindR_Ok in H. destruct H as ([i k'] & H1 & H2). inversion H2; subst.
  destruct (extract_total env l es He) as (i2 & E2 & S2). rewrite H1 in E2. inversion E2; subst i2. cbn [fst updated_by_inert_attr cx_ignores].
  rewrite (sb_ignores _ _ S2). unfold node_ignores.
  assert (Hl : last_some (map ev_assigned es) = None).
  { clear - Hn. induction es as [|e es IH]; [reflexivity|]. cbn [map last_some]. rewrite IH; [apply Hn; now left|]. intros x Hx. apply Hn. now right. }
  rewrite Hl. rewrite after_none by exact Hl.
  assert (Ht : existsb ev_touches es = false).
  { destruct (existsb ev_touches es) eqn:E; [|reflexivity]. apply existsb_exists in E. destruct E as (e & E1 & E3).
    destruct (Hn e E1) as (_ & Hb & Hc). destruct e; try discriminate.
    - cbn [ev_listed ev_touches] in *. rewrite Hb in E3. discriminate.
    - exfalso. eapply Hc. reflexivity. }
  rewrite Ht. reflexivity.
Qed.
Print Assumptions C20_inherited.
Example C20_ex :
  exists i k, extract xa_env [xa_list "ignore_tail_expr_idents" ["A"]; xa_set "tail_expr_idents" (VStr "my" call_site);
                              xa_list "tail_expr_idents" ["Err"; "!Ok"; "!Done"]; xa_list "ignore_tail_expr_idents" ["Nil"]] = Ok (i, k) /\
    in_tails i = Some ["Err"] /\ in_ignores i = Some ["Fine"; "Ok"; "Done"; "Nil"].
Proof. eexists _, _. vm_compute. repeat split. Qed.
Example C20_inherited_ex :
  exists i k, extract xa_env [xa_list "tail_expr_idents" ["Err"]; xa_word ["inline"]] = Ok (i, k) /\ in_ignores i = None /\ in_tails i = Some ["Err"] /\
    node_events xa_env [xa_list "tail_expr_idents" ["Err"]; xa_word ["inline"]] [EvTails ["Err"]].
Proof.
  eexists _, _. split; [vm_compute; reflexivity|]. split; [reflexivity|]. split; [reflexivity|]. apply ne_hooq.
  - reflexivity.
  - left. eapply mn_tails; [exists call_site, call_site; reflexivity|]. cbn. repeat constructor.
  - apply ne_foreign; [reflexivity| |constructor]. intros (x & r & H & _ & Hl). inversion H; subst. simpl in Hl. lia.
Qed.

(** * C21: every hooq attribute has its documented effect or is an error *)

(** Full statement: "extract env l = Ok (i, k) and a hooq attribute a of l: a [means] something, and the settings are those of the meanings."
    False of the code for [#[hooq::skip = v]], [#[::hooq::method = v]] and the like ([odd]): see C21_refuted.  What is missing is only those. *)
Theorem C21_meaning_partial env l i k :
  extract env l = Ok (i, k) ->
  exists es, node_events env l es /\ set_by es i /\
    Forall (fun a => hooq_path (meta_path (at_meta a)) = true -> exists e, In e es /\ (means env (at_meta a) e \/ odd (at_meta a) e)) l.
Proof.
  intros H. apply extract_ok in H. destruct H as (es & H & S & _). exists es. split; [exact H|]. split; [exact S|]. clear S i.
  induction H as [|a l e es Hh Hr He IH|a l es Hh Hl He IH]; constructor.
  - intros _. exists e. split; [now left|exact Hr].
  - eapply Forall_impl; [|exact IH]. intros b Hb Hx. destruct (Hb Hx) as (e' & H1 & H2). exists e'. split; [now right|exact H2].
  - congruence.
  - exact IH.
Qed.
Print Assumptions C21_meaning_partial.
(** an attribute that means nothing makes the whole list fail *)
Theorem C21_error env l a :
  In a l -> hooq_path (meta_path (at_meta a)) = true -> ~ (exists e, means env (at_meta a) e \/ odd (at_meta a) e) ->
  ~ exists i k, extract env l = Ok (i, k).
Proof.
  intros Hin Hh Hn (i & k & H). apply extract_ok in H. destruct H as (es & H & _). induction H as [|b l e es Hb Hr He IH|b l es Hb Hl He IH]; [contradiction| |].
  - destruct Hin as [->|Hin]; [|exact (IH Hin)]. apply Hn. exists e. exact Hr.
  - destruct Hin as [->|Hin]; [|exact (IH Hin)]. congruence.
Qed.
Print Assumptions C21_error.
(** conversely a list whose hooq attributes all mean something is accepted *)
Theorem C21_accepted env l es : node_events env l es -> exists i k, extract env l = Ok (i, k) /\ set_by es i.
Proof. intros H. destruct (extract_total env l es H) as (i & H1 & H2). exists i, (foreign l). auto. Qed.
Print Assumptions C21_accepted.
(** [#[hooq::skip = true]] is accepted, does not skip, and means nothing documented *)
Theorem C21_refuted :
  exists env a i k, extract env [a] = Ok (i, k) /\ hooq_path (meta_path (at_meta a)) = true /\ ~ (exists e, means env (at_meta a) e) /\
    in_skip i = false /\ k = [].
Proof.
  exists xa_env, (xa_set "skip" (VOther [qi "true"])). eexists _, _. split; [vm_compute; reflexivity|]. split; [reflexivity|]. split; [|split; reflexivity].
  intros (e & H). cbn [at_meta xa_set xa] in H. inversion H; subst;
    try (match goal with H : plain_path _ _ |- _ => destruct H as (u & v & Hp); inversion Hp end).
  match goal with Hp : xa_path _ = _, Hr : ~ In _ reserved |- _ => inversion Hp; subst; apply Hr end. unfold reserved. cbn [In]. tauto.
Qed.
Print Assumptions C21_refuted.
(** and [#[::hooq::method = "my"]] sets no method but binds [$method] *)
Theorem C21_leading_refuted :
  exists env a i k, extract env [a] = Ok (i, k) /\ p_idents (meta_path (at_meta a)) = ["hooq"; "method"] /\ in_method i = None /\
    mget "method" (in_bindings i) <> None /\ k = [].
Proof.
  exists xa_env, (xa (MNameValue (mk_path true (map xa_seg ["hooq"; "method"])) (VStr "my" call_site))). eexists _, _.
  split; [vm_compute; reflexivity|]. repeat split; vm_compute; discriminate.
Qed.
Print Assumptions C21_leading_refuted.
Example C21_ex :
  exists i, extract xa_env [xa_set "flavor" (VPath (xa_path ["my"])); xa_word ["hooq"; "skip"]; xa_set "who" (VOther [qi "me"])] = Ok (i, []) /\
    in_method i = Some (fl_method xa_core) /\ in_skip i = true /\ mget "who" (in_bindings i) = Some [qi "me"] /\ mget "k" (in_bindings i) = Some [qi "v"].
Proof. eexists. vm_compute. repeat split. Qed.
Example C21_error_ex : extract xa_env [xa_word ["hooq"; "skipp"]] = Err ErrAttrFormat /\ extract xa_env [xa_list "skip" []] = Err ErrAttrFormat.
Proof. split; reflexivity. Qed.
