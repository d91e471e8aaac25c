(** C59 and C60: attributes that say the same may be written for each other.  *)
From Coq Require Import String Ascii Bool Arith Lia Permutation List.
From Verif Require Import Base Tokens Method Paths Context Flavor Attrs Syntax Render Walker RootAttr MapFacts RenderSpec AttrSpec SiteSpec ProgSpec FlavorSpec WalkSpec ShiftSpec RewriteSpec OrderProofs Properties_Attrs WalkExamples Properties_Shift.
Import ListNotations.
Open Scope string_scope.
Open Scope list_scope.

(** * C59: the order of hooq attributes that set different things does not matter *)
(** on any node, except below the operand of [?] and [return], below tail expressions and in macro arguments *)
Theorem C59_order E f it it' : NoDup (keys (fl_bindings f)) -> rw_item (shuffle (ev_attr E)) it it' ->
  (forall out, expands E f it out -> exists out', expands E f it' out' /\ itoks out' = itoks out) /\
  (forall out, expands E f it' out -> exists out', expands E f it out' /\ itoks out' = itoks out).
Proof.
  intros HN H. apply (rw_mono _ _ (shuffle_meaning (ev_attr E))) in H. split; intros out; apply rewrite_shift; try assumption. apply rw_sym; [apply meaning_sym|exact H].
Qed.
Print Assumptions C59_order.

(** mod m { fn f() { while go() { #[a] let x = a()?; } || { #[c] b()?; }; Fail() } } with attributes on the module, the function, the [let] and the expression *)
Definition x_mod (a b c d : list attr) : item :=
  IMod a [qi "mod"; qi "m"] call_site
    [x_fn b "f" RetNone
       [SExpr (EWhile [] [qi "while"] (x_call "go" []) call_site [x_let c "x" (x_try (x_call "a" []))]) None;
        semi (EClosure [] [qp "|"; qp "|"] RetNone (x_block [] [semi (x_try_a d (x_call "b" []))]));
        tail (x_call "Fail" [])]].
Definition x_ord1 : item := x_mod [x_tag; xa_word ["inline"]; x_who] [xa_list "tail_expr_idents" ["Fail"]; x_tag] [skip_; x_who] [x_who; x_tag].
Definition x_ord2 : item := x_mod [xa_word ["inline"]; x_who; x_tag] [x_tag; xa_list "tail_expr_idents" ["Fail"]] [x_who; skip_] [x_tag; x_who].
Lemma reads_tag env r es : ae_consume env = false -> node_events env r es -> node_events env (x_tag :: r) (EvMethod (Insert call_site [qi "tag"; qg Parenth []] false) :: es).
Proof. intros H Hr. eapply ne_hooq; [reflexivity| |exact Hr]. left. eapply mn_method; [t_plain|]. rewrite H. apply (MethodProofs.parse_method_ok false [qp "."; qi "tag"; qg Parenth []]). Qed.
Lemma reads_inline env r es : node_events env r es -> node_events env (xa_word ["inline"] :: r) es.
Proof. intros H. apply ne_foreign; [reflexivity|intros (? & ? & G & _ & Hl); inversion G; subst; cbn in Hl; lia|exact H]. Qed.
Ltac t_read := repeat first [apply ne_nil | apply reads_tag; [reflexivity|] | apply reads_inline | eapply ne_hooq; [reflexivity|t_reads|]].
Ltac t_free := repeat constructor; try (cbn; intros [? ?]; discriminate); try (cbn; intros k [H1 H2]; discriminate); cbn; intros k; rewrite ?andb_false_r, ?orb_false_r; intros [H1 H2]; discriminate.
Ltac t_swap := split; [reflexivity|]; eexists _, _; split; [t_read|]; split; [t_read|]; split; [apply perm_swap|]; t_free.
(** the relation between the two modules, for any relation that holds between the four pairs of lists *)
Lemma mod_rw P a a' b b' c c' d d' : like P a a' -> like P b b' -> like P c c' -> P d d' -> rw_item P (x_mod a b c d) (x_mod a' b' c' d').
Proof.
  intros Ha Hb Hc Hd. apply ri_mod; [exact Ha|]. apply ris_cons; [|apply ris_nil]. apply ri_fn; [exact Hb|]. apply rb_cons.
  - apply rs_expr, rx_while; [left; reflexivity|apply rx_own, oe_same|]. apply rb_last; [discriminate|]. apply rs_let; [exact Hc|apply rx_own, oe_same|apply ro_none].
  - apply rb_cons.
    + apply rs_expr, rx_closure_block; [left; reflexivity|left; reflexivity|]. apply rb_last; [discriminate|]. apply rs_expr, rx_own.
      change (x_try_a d' (x_call "b" [])) with (set_attrs d' (x_try_a d (x_call "b" []))). apply oe_own with (a := d); [reflexivity|reflexivity|exact Hd].
    + apply rb_tail, oe_same.
Qed.
Example C59_ex : rw_item (shuffle xa_env) x_ord1 x_ord2 /\ x_ord1 <> x_ord2 /\
  exists out out', expands x_env x_core x_ord1 out /\ expands x_env x_core x_ord2 out' /\ itoks out' = itoks out /\ itoks out <> itoks (out_of x_env x_core (x_mod [] [] [] [])).
Proof.
  split; [|split; [discriminate|]].
  - apply mod_rw; [right; t_swap|right; t_swap|right; t_swap|t_swap].
  - eexists _, _. split; [eexists; vm_compute; reflexivity|]. split; [eexists; vm_compute; reflexivity|]. split; [vm_compute; reflexivity|]. vm_compute. discriminate.
Qed.
(** of two methods the one written last counts *)
Theorem C59_method_refuted : exists E f a a' it out, fl_bindings f = [] /\ it = x_fn (a ++ a') "f" RetNone [semi (x_try (x_call "a" []))] /\
  expands E f it out /\ forall out', expands E f (x_fn (a' ++ a) "f" RetNone [semi (x_try (x_call "a" []))]) out' -> itoks out' <> itoks out.
Proof.
  exists x_env, xf_core, [x_tag], [method_ [qp "."; qi "log"; qg Parenth []]]. eexists _, _. split; [reflexivity|]. split; [reflexivity|]. split; [eexists; vm_compute; reflexivity|].
  intros out' [cnt H]. vm_compute in H. injection H as <- _. vm_compute. discriminate.
Qed.
Print Assumptions C59_method_refuted.

(** * C60: only what the attributes of a node amount to matters *)
(** lists of attributes after which the same settings are in force may be written for each other *)
Theorem C60_meaning E f it it' : NoDup (keys (fl_bindings f)) -> rw_item (same_meaning (ev_attr E)) it it' ->
  (forall out, expands E f it out -> exists out', expands E f it' out' /\ itoks out' = itoks out) /\
  (forall out, expands E f it' out -> exists out', expands E f it out' /\ itoks out' = itoks out).
Proof. intros HN H. split; intros out; apply rewrite_shift; try assumption. apply rw_sym; [apply meaning_sym|exact H]. Qed.
Print Assumptions C60_meaning.
(** an attribute all of whose settings are set again by later attributes of the same node can be deleted *)
Theorem C60_overridden E f it it' : NoDup (keys (fl_bindings f)) -> rw_item (drops_overridden (ev_attr E)) it it' ->
  (forall out, expands E f it out -> exists out', expands E f it' out' /\ itoks out' = itoks out) /\
  (forall out, expands E f it' out -> exists out', expands E f it out' /\ itoks out' = itoks out).
Proof. intros HN H. apply C60_meaning; [exact HN|]. exact (rw_mono _ _ (drops_meaning (ev_attr E)) _ _ H). Qed.
Print Assumptions C60_overridden.
(** [flavor = f] is [method = f], [hook_targets = f], [tail_expr_idents = f], [result_types = f], [hook_in_macros = f] and [bindings = f] *)
Theorem C60_parts E f it it' : NoDup (keys (fl_bindings f)) -> rw_item (in_parts (ev_attr E)) it it' ->
  (forall out, expands E f it out -> exists out', expands E f it' out' /\ itoks out' = itoks out) /\
  (forall out, expands E f it' out -> exists out', expands E f it out' /\ itoks out' = itoks out).
Proof. intros HN H. apply C60_meaning; [exact HN|]. exact (rw_mono _ _ (parts_meaning (ev_attr E)) _ _ H). Qed.
Print Assumptions C60_parts.

(** #[hooq::binding(who = me)] for #[hooq::who = me]; a method, two lists and a skip that are overridden; a flavor in its parts *)
Definition x_bind (n : string) : attr := xa (MList (xa_path ["hooq"; n]) Parenth [qi "who"; qp "="; qi "me"] call_site).
Definition xw_env : env :=
  mk_env (mk_attr_env false (ae_flavor xa_env) (fun ts => match ts with TIdent n sp :: TPunct "=" _ :: v => Some (mk_path false [mk_seg n [] sp], v) | _ => None end)) (ev_parse x_env) (ev_str x_env).
Definition x_log : attr := method_ [qp "."; qi "log"; qg Parenth [qp "$"; qi "who"]].
Lemma reads_log r es : node_events (ev_attr xw_env) r es ->
  node_events (ev_attr xw_env) (x_log :: r) (EvMethod (Insert call_site [qi "log"; qg Parenth [qp "$"; qi "who"]] false) :: es).
Proof. intros Hr. eapply ne_hooq; [reflexivity| |exact Hr]. left. eapply mn_method; [t_plain|]. apply (MethodProofs.parse_method_ok false [qp "."; qi "log"; qg Parenth [qp "$"; qi "who"]]). Qed.
Lemma reads_bind n r es : In n ["binding"; "var"] -> node_events (ev_attr xw_env) r es -> node_events (ev_attr xw_env) (x_bind n :: r) (EvBind [("who", [qi "me"])] :: es).
Proof.
  intros Hn Hr. eapply ne_hooq; [reflexivity| |exact Hr]. left. change "who" with (seg_id (mk_seg "who" [] call_site)).
  eapply mn_binding; [destruct Hn as [<-|[<-|[]]]; [left|right]; t_plain|reflexivity|reflexivity].
Qed.
Definition x_part (n : string) : attr := xa_set n (VPath (xa_path ["my"])).
Definition x_parts : list attr := map x_part ["method"; "hook_targets"; "tail_expr_idents"; "result_types"; "hook_in_macros"; "bindings"].
Lemma my_named : flavor_named (ev_attr xw_env) (VPath (xa_path ["my"])) xa_core.
Proof. exists ["my"]. split; [|reflexivity]. apply nf_path. repeat constructor; discriminate. Qed.
Lemma reads_parts : node_events (ev_attr xw_env) x_parts (flavor_parts xa_core).
Proof.
  pose proof my_named as H. unfold x_parts, flavor_parts. cbn [map].
  eapply ne_hooq; [reflexivity|left; apply mn_from_method; [t_plain|exact H]|]. eapply ne_hooq; [reflexivity|left; apply mn_from_targets; [t_plain|exact H]|].
  eapply ne_hooq; [reflexivity|left; apply mn_from_tails; [t_plain|exact H]|]. eapply ne_hooq; [reflexivity|left; apply mn_from_results; [t_plain|exact H]|].
  eapply ne_hooq; [reflexivity|left; apply mn_from_macros; [t_plain|exact H]|]. eapply ne_hooq; [reflexivity|left; apply mn_from_bindings; [t_plain|exact H]|]. apply ne_nil.
Qed.
Ltac t_readw := repeat first [apply ne_nil | apply reads_log | apply reads_tag; [reflexivity|] | apply reads_inline | apply reads_bind; [cbn; tauto|] | eapply ne_hooq; [reflexivity|t_reads|]].
Ltac t_same := split; [reflexivity|]; eexists _, _; split; [t_readw|]; split; [t_readw|]; constructor; reflexivity.
Definition x_new1 : item := x_mod [x_bind "binding"; xa_word ["inline"]; x_log] [x_tag; x_who; xa_list "result_types" ["R"]; x_log; xa_list "result_types" ["S"]] [skip_; skip_] [x_tag; x_log].
Definition x_new2 : item := x_mod [xa_word ["inline"]; x_who; x_log] [xa_list "result_types" ["S"]; x_log; x_bind "var"] [skip_] [x_log].
Example C60_ex : rw_item (same_meaning (ev_attr xw_env)) x_new1 x_new2 /\
  exists out out', expands xw_env x_core x_new1 out /\ expands xw_env x_core x_new2 out' /\ itoks out' = itoks out /\ itoks out <> itoks (out_of xw_env x_core (x_mod [] [] [] [])).
Proof.
  split; [apply mod_rw; [right; t_same|right; t_same|right; t_same|t_same]|].
  eexists _, _. split; [eexists; vm_compute; reflexivity|]. split; [eexists; vm_compute; reflexivity|]. split; [vm_compute; reflexivity|]. vm_compute. discriminate.
Qed.
Ltac t_covered := constructor; cbn; try discriminate; try (intros; reflexivity); intros k; rewrite ?orb_false_r; intros H; try discriminate; rewrite ?H; reflexivity.
Example C60_ex_overridden : rw_item (drops_overridden (ev_attr xw_env)) (x_mod [x_tag; x_log] [x_who; x_bind "var"] [] [skip_; x_who; skip_; x_who]) (x_mod [x_log] [x_bind "var"] [] [x_who; skip_; x_who]) /\
  (exists out, expands xw_env x_core (x_mod [x_tag; x_log] [x_who; x_bind "var"] [] [skip_; x_who; skip_; x_who]) out).
Proof.
  split; [|eexists; eexists; vm_compute; reflexivity]. apply mod_rw.
  - right. split; [reflexivity|]. eexists [], _, _. split; [t_readw|]. split; [t_readw|]. t_covered.
  - right. split; [reflexivity|]. eexists [], _, _. split; [t_readw|]. split; [t_readw|]. t_covered.
  - left. reflexivity.
  - split; [reflexivity|]. eexists [], _, _. split; [t_readw|]. split; [t_readw|]. t_covered.
Qed.
Example C60_ex_parts : rw_item (in_parts (ev_attr xw_env)) (x_fn [x_my] "f" x_result [semi (x_try (x_call "a" [])); tail (x_call "Err" [])]) (x_fn x_parts "f" x_result [semi (x_try (x_call "a" [])); tail (x_call "Err" [])]) /\
  exists out out', expands xw_env xf_core (x_fn [x_my] "f" x_result [semi (x_try (x_call "a" [])); tail (x_call "Err" [])]) out /\
    expands xw_env xf_core (x_fn x_parts "f" x_result [semi (x_try (x_call "a" [])); tail (x_call "Err" [])]) out' /\ itoks out' = itoks out.
Proof.
  split.
  - apply ri_fn; [|apply rb_cons; [apply rs_same|apply rb_tail, oe_same]]. right. split; [reflexivity|]. exists [], xa_core, []. split.
    + eapply ne_hooq; [reflexivity| |apply ne_nil]. left. apply mn_from_flavor; [t_plain|exact my_named].
    + rewrite app_nil_r. exact reads_parts.
  - eexists _, _. split; [eexists; vm_compute; reflexivity|]. split; [eexists; vm_compute; reflexivity|]. vm_compute. reflexivity.
Qed.
(** Below the operand of a [?] the attributes can be seen: [$source] shows the text with the hooq attributes in it.  [.log($source)] and [a(#[hooq::skip] #[hooq::skip] b()?)?] *)
Definition x_shows : fcore :=
  {| fl_traits := []; fl_method := Insert call_site [qi "log"; qg Parenth [qp "$"; qi "source"]] false; fl_targets := mk_switch true true true;
     fl_tails := ["Err"]; fl_ignores := ["Ok"]; fl_results := ["Result"]; fl_macros := true; fl_bindings := [] |}.
Definition x_inside (a : list attr) : item := x_fn [] "f" RetNone [semi (x_try (x_call "a" [x_try_a a (x_call "b" [])]))].
Theorem C60_source_refuted : exists E f a a' out, fl_bindings f = [] /\ same_meaning (ev_attr E) a a' /\ expands E f (x_inside a) out /\
  forall out', expands E f (x_inside a') out' -> itoks out' <> itoks out.
Proof.
  exists (mk_env xa_env (ev_parse x_env) (fun ts => dec (length ts))), x_shows, [skip_; skip_], [skip_]. eexists. split; [reflexivity|]. split.
  - split; [reflexivity|]. eexists _, _. split; [t_read|]. split; [t_read|]. constructor; reflexivity.
  - split; [eexists; vm_compute; reflexivity|]. intros out' [cnt H]. vm_compute in H. injection H as <- _. vm_compute. discriminate.
Qed.
Print Assumptions C60_source_refuted.
(** [$so_far] is the method of the surrounding node, not the one written before on the same node: [tag] is lost *)
Definition x_more : attr := method_ [qp "."; qp "$"; qi "so_far"; qp "."; qi "more"; qg Parenth []].
Example C60_ex_so_far : exists out, expands x_env x_core (x_fn [x_tag; x_more] "f" RetNone [semi (x_try (x_call "a" []))]) out /\ expands x_env x_core (x_fn [x_more] "f" RetNone [semi (x_try (x_call "a" []))]) out.
Proof. eexists. split; eexists; vm_compute; reflexivity. Qed.
