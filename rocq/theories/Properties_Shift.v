(** C57 and C58: where settings may be written.  *)
From Coq Require Import String Ascii Bool Arith Lia List.
From Verif Require Import Base Tokens Method Paths Context Flavor Attrs Syntax Render Walker RootAttr MapFacts RenderSpec AttrSpec SiteSpec ProgSpec FlavorSpec WalkSpec ShiftSpec ShiftProofs Properties_Attrs WalkExamples.
Import ListNotations.
Open Scope string_scope.
Open Scope list_scope.

(** * C57: a flavor named on the item is the flavor named in [#[hooq(...)]] *)
(** The item expands as under the flavor at the root.  [o] is what its other attributes say. *)
Theorem C57_flavor_on_item E f g x it o out :
  node_events (ev_attr E) [x] [EvFlavor g] ->
  NoDup (keys (fl_bindings f)) -> NoDup (keys (fl_bindings g)) -> incl (keys (fl_bindings f)) (keys (fl_bindings g)) ->
  node_events (ev_attr E) (own it) o -> apart [EvFlavor g] o ->
  expands E g it out -> exists out', expands E f (give [x] it) out' /\ itoks out' = itoks out.
Proof. apply flavor_shift. Qed.
Print Assumptions C57_flavor_on_item.

(** the whole macro: only the imported traits may differ *)
Definition root_of (parse_paths : list tt -> option (list path)) (E : env) (args : list meta) (rc : root_ctx) : Prop :=
  exists ra, parse_root parse_paths args = Ok ra /\ root_load (ae_flavor (ev_attr E)) ra = Ok rc.
Theorem C57_macro parse_paths E args args' f g x it o ts :
  root_of parse_paths E args f -> root_of parse_paths E args' g ->
  node_events (ev_attr E) [x] [EvFlavor (rc_core g)] ->
  NoDup (keys (fl_bindings (rc_core f))) -> NoDup (keys (fl_bindings (rc_core g))) -> incl (keys (fl_bindings (rc_core f))) (keys (fl_bindings (rc_core g))) ->
  node_events (ev_attr E) (own it) o -> apart [EvFlavor (rc_core g)] o ->
  hooq_impls parse_paths E args' it = Ok (trait_uses_toks g ++ ts) -> hooq_impls parse_paths E args (give [x] it) = Ok (trait_uses_toks f ++ ts).
Proof.
  intros (ra & Hp & Hl) (ra' & Hp' & Hl') Hx Hf Hg Hi Ho HA. unfold hooq_impls, hooq_impls_parts. rewrite Hp, Hp'. cbn [bindR]. rewrite Hl, Hl'. cbn [bindR].
  destruct (walk_item E (ctx_new (rc_core g)) it counter0) as [[out cnt]|?|?] eqn:Hw; cbn [bindR fst snd]; intros H; try discriminate.
  destruct (flavor_shift E _ _ _ _ _ out Hx Hf Hg Hi Ho HA (ex_intro _ cnt Hw)) as (out' & [cnt' Hw'] & Ht). rewrite Hw'. cbn [bindR fst snd]. rewrite Ht.
  injection H as H. unfold trait_uses_toks in *. apply app_inv_head in H. rewrite H. reflexivity.
Qed.
Print Assumptions C57_macro.

(** [x_core] with a method of its own and nothing else to begin with, [xa_core] is the flavor "my" *)
Definition xf_core : fcore :=
  {| fl_traits := []; fl_method := Insert call_site [qi "root"; qg Parenth []] false; fl_targets := mk_switch true true true;
     fl_tails := []; fl_ignores := []; fl_results := []; fl_macros := false; fl_bindings := [] |}.
Definition x_my : attr := xa_set "flavor" (VPath (xa_path ["my"])).
Lemma reads_my : node_events xa_env [x_my] [EvFlavor xa_core].
Proof.
  eapply ne_hooq; [reflexivity| |apply ne_nil]. left. apply mn_from_flavor; [t_plain|]. exists ["my"]. split; [|reflexivity]. apply nf_path. repeat constructor; discriminate.
Qed.
Definition x_who : attr := xa_set "who" (VOther [qi "me"]).
(** [#[hooq::who = me] fn f() -> Result { a()?; { Err() } }] *)
Definition xf_item : item := x_fn [x_who] "f" x_result [semi (x_try (x_call "a" [])); tail (x_block [] [tail (x_call "Err" [])])].
Example C57_ex :
  (exists o, node_events xa_env (own xf_item) o /\ apart [EvFlavor xa_core] o /\ NoDup (keys (fl_bindings xa_core)) /\ incl (keys (fl_bindings xf_core)) (keys (fl_bindings xa_core))) /\
  (exists out out', expands x_env xa_core xf_item out /\ expands x_env xf_core (give [x_my] xf_item) out' /\ itoks out' = itoks out /\
     ~ expands x_env xf_core xf_item out /\ out <> out_of x_env xf_core xf_item).
Proof.
  split.
  - exists [EvBind [("who", [qi "me"])]]. split; [unfold xf_item, x_fn; cbn [own]; t_events|]. split; [|split; [repeat constructor; cbn; tauto|intros y []]].
    split; right; repeat constructor.
  - eexists _, _. split; [eexists; vm_compute; reflexivity|]. split; [eexists; vm_compute; reflexivity|]. split; [vm_compute; reflexivity|]. split.
    + intros [cnt H]. vm_compute in H. discriminate.
    + vm_compute. discriminate.
Qed.
Definition x_args (l : list string) : list meta := match l with [] => [] | _ => [MPath (xa_path l)] end.
Definition xf_env : env := mk_env (mk_attr_env false (fun l => match l with ["my"] => Ok xa_core | ["default"] => Ok xf_core | _ => Err (ErrFlavorNotFound l ["my"]) end) (fun _ => None)) (ev_parse x_env) (ev_str x_env).
Example C57_ex_macro : root_of (fun _ => None) xf_env (x_args []) (mk_root_ctx [] xf_core) /\ root_of (fun _ => None) xf_env (x_args ["my"]) (mk_root_ctx (fl_traits xa_core) xa_core) /\
  exists ts, hooq_impls (fun _ => None) xf_env (x_args ["my"]) xf_item = Ok (trait_uses_toks (mk_root_ctx (fl_traits xa_core) xa_core) ++ ts) /\
    hooq_impls (fun _ => None) xf_env (x_args []) (give [x_my] xf_item) = Ok (trait_uses_toks (mk_root_ctx [] xf_core) ++ ts).
Proof.
  split; [eexists; split; reflexivity|]. split; [eexists; split; reflexivity|]. eexists. split; vm_compute; [|reflexivity]. reflexivity.
Qed.

(** without the condition on bindings: a binding of the flavor at the root stays visible, though the flavor on the item has none of that name *)
Definition with_bindings (b : smap (list tt)) (f : fcore) : fcore :=
  mk_fcore (fl_traits f) (fl_method f) (fl_targets f) (fl_tails f) (fl_ignores f) (fl_results f) (fl_macros f) b.
Definition with_template (ts : list tt) (f : fcore) : fcore :=
  mk_fcore (fl_traits f) (Insert call_site ts false) (fl_targets f) (fl_tails f) (fl_ignores f) (fl_results f) (fl_macros f) (fl_bindings f).
Definition xg_core : fcore := with_template [qi "log"; qg Parenth [qp "$"; qi "bindings"]] xf_core.
Definition xg_env : env := mk_env (mk_attr_env false (fun l => match l with ["my"] => Ok xg_core | _ => Err (ErrFlavorNotFound l ["my"]) end) (fun _ => None)) (ev_parse x_env) (ev_str x_env).
Lemma reads_my_any E g : ae_flavor (ev_attr E) ["my"] = Ok g -> node_events (ev_attr E) [x_my] [EvFlavor g].
Proof.
  intros H. eapply ne_hooq; [reflexivity| |apply ne_nil]. left. apply mn_from_flavor; [t_plain|]. exists ["my"]. split; [|exact H]. apply nf_path. repeat constructor; discriminate.
Qed.
Definition xg_item : item := x_fn [] "f" x_result [semi (x_try (x_call "a" []))].
Theorem C57_bindings_refuted : exists E f g x it out, node_events (ev_attr E) [x] [EvFlavor g] /\ NoDup (keys (fl_bindings f)) /\ NoDup (keys (fl_bindings g)) /\
  node_events (ev_attr E) (own it) [] /\ expands E g it out /\ (exists out', expands E f (give [x] it) out' /\ itoks out' <> itoks out) /\
  forall out', expands E f (give [x] it) out' -> itoks out' <> itoks out.
Proof.
  exists xg_env, (with_bindings [("left", [qi "over"])] xf_core), xg_core, x_my, xg_item. eexists.
  split; [apply reads_my_any; reflexivity|]. split; [repeat constructor; cbn; tauto|]. split; [repeat constructor|]. split; [apply ne_nil|].
  split; [eexists; vm_compute; reflexivity|]. split; [eexists; split; [eexists; vm_compute; reflexivity|vm_compute; discriminate]|].
  intros out' [cnt H]. vm_compute in H. injection H as <- _. vm_compute. discriminate.
Qed.
Print Assumptions C57_bindings_refuted.
(** the other way round: the method of a flavor on the item may refer to the method of the root by [$so_far], the same method at the root may not *)
Definition xs_core : fcore := with_template [qi "log"; qg Parenth [qp "$"; qi "so_far"]] xf_core.
Definition xs_env : env := mk_env (mk_attr_env false (fun l => match l with ["my"] => Ok xs_core | _ => Err (ErrFlavorNotFound l ["my"]) end) (fun _ => None)) (ev_parse x_env) (ev_str x_env).
Theorem C57_back_refuted : exists E f g x it out, node_events (ev_attr E) [x] [EvFlavor g] /\ fl_bindings f = [] /\ fl_bindings g = [] /\
  node_events (ev_attr E) (own it) [] /\ expands E f (give [x] it) out /\ walk_item E (ctx_new g) it counter0 = Err ErrNoSoFar.
Proof.
  exists xs_env, xf_core, xs_core, x_my, xg_item. eexists.
  split; [apply reads_my_any; reflexivity|]. split; [reflexivity|]. split; [reflexivity|]. split; [apply ne_nil|]. split; [eexists; vm_compute; reflexivity|]. vm_compute. reflexivity.
Qed.
Print Assumptions C57_back_refuted.

(** * C58: a setting on a module, an impl block or a trait is a setting on each of its members *)
(** [es] is what the attributes [x] say, [a] are the other attributes of the container *)
Theorem C58_mod E f x a es hd sp l :
  NoDup (keys (fl_bindings f)) -> all_hooq x -> node_events (ev_attr E) x es -> node_events (ev_attr E) a [] ->
  Forall (fun i => exists o, node_events (ev_attr E) (own i) o /\ apart es o) l ->
  (forall out, expands E f (IMod (x ++ a) hd sp l) out -> exists out', expands E f (IMod a hd sp (map (give x) l)) out' /\ itoks out' = itoks out) /\
  (forall out, expands E f (IMod a hd sp (map (give x) l)) out -> exists out', expands E f (IMod (x ++ a) hd sp l) out' /\ itoks out' = itoks out).
Proof. intros Hn HX Hx Ha HF. eapply mod_shift; eassumption. Qed.
Print Assumptions C58_mod.
Theorem C58_impl E f x a es hd sp l :
  NoDup (keys (fl_bindings f)) -> all_hooq x -> node_events (ev_attr E) x es -> node_events (ev_attr E) a [] ->
  Forall (fun i => exists o, node_events (ev_attr E) (impl_own i) o /\ apart es o) l ->
  (forall out, expands E f (IImpl (x ++ a) hd sp l) out -> exists out', expands E f (IImpl a hd sp (map (impl_give x) l)) out' /\ itoks out' = itoks out) /\
  (forall out, expands E f (IImpl a hd sp (map (impl_give x) l)) out -> exists out', expands E f (IImpl (x ++ a) hd sp l) out' /\ itoks out' = itoks out).
Proof. intros Hn HX Hx Ha HF. eapply impl_shift; eassumption. Qed.
Print Assumptions C58_impl.
Theorem C58_trait E f x a es hd sp l :
  NoDup (keys (fl_bindings f)) -> all_hooq x -> node_events (ev_attr E) x es -> node_events (ev_attr E) a [] ->
  Forall (fun i => exists o, node_events (ev_attr E) (trait_own i) o /\ apart es o) l ->
  (forall out, expands E f (ITrait (x ++ a) hd sp l) out -> exists out', expands E f (ITrait a hd sp (map (trait_give x) l)) out' /\ itoks out' = itoks out) /\
  (forall out, expands E f (ITrait a hd sp (map (trait_give x) l)) out -> exists out', expands E f (ITrait (x ++ a) hd sp l) out' /\ itoks out' = itoks out).
Proof. intros Hn HX Hx Ha HF. eapply trait_shift; eassumption. Qed.
Print Assumptions C58_trait.

(** #[hooq::method(.tag())] #[hooq::tail_expr_idents("Fail")] #[inline] mod m {
        fn f() { a()?; Fail() }
        #[hooq::tail_expr_idents("Err")] fn g() { Fail() }
        struct S;
    } *)
Definition x_tag : attr := method_ [qp "."; qi "tag"; qg Parenth []].
Definition x_given : list attr := [x_tag; xa_list "tail_expr_idents" ["Fail"]].
Definition x_others : list attr := [xa_word ["inline"]].
Definition x_members : list item :=
  [x_fn [] "f" RetNone [semi (x_try (x_call "a" [])); tail (x_call "Fail" [])];
   x_fn [xa_list "tail_expr_idents" ["Err"]] "g" RetNone [tail (x_call "Fail" [])];
   IOther [skip_] [qi "struct"; qi "S"; qp ";"]].
Example C58_ex : all_hooq x_given /\
  (exists es, node_events xa_env x_given es /\ es <> [] /\ Forall (fun i => exists o, node_events xa_env (own i) o /\ apart es o) x_members) /\ node_events xa_env x_others [] /\
  exists out out', expands x_env x_core (IMod (x_given ++ x_others) [qi "mod"; qi "m"] call_site x_members) out /\
    expands x_env x_core (IMod x_others [qi "mod"; qi "m"] call_site (map (give x_given) x_members)) out' /\ itoks out' = itoks out /\
    ~ expands x_env x_core (IMod x_others [qi "mod"; qi "m"] call_site x_members) out.
Proof.
  split; [repeat constructor|]. split.
  - exists [EvMethod (Insert call_site [qi "tag"; qg Parenth []] false); EvTails ["Fail"]]. split; [|split; [discriminate|]].
    + eapply ne_hooq; [reflexivity| |]; [left; eapply mn_method; [t_plain|apply MethodProofs.parse_method_ok; reflexivity]|]. t_events.
    + repeat constructor.
      * exists []. split; [apply ne_nil|]. split; right; constructor.
      * exists [EvTails ["Err"]]. split; [unfold x_fn; cbn [own]; t_events|]. split; right; repeat constructor.
      * exists []. split; [apply ne_nil|]. split; right; constructor.
  - split; [unfold x_others; t_events|]. eexists _, _. split; [eexists; vm_compute; reflexivity|]. split; [eexists; vm_compute; reflexivity|]. split; [vm_compute; reflexivity|].
    intros [cnt H]. vm_compute in H. discriminate.
Qed.
(** the same for an impl block and a trait, with [skip_all] *)
Example C58_ex_impl : all_hooq [skip_all_; x_who] /\
  exists out out', expands x_env x_core (IImpl [skip_all_; x_who] [qi "impl"; qi "S"] call_site [IIFn [] [] (x_sig "f" RetNone) call_site [semi (x_try (x_call "a" []))]; IIConst [] [qi "const"] (x_try (x_call "b" [])) [qp ";"]]) out /\
    expands x_env x_core (IImpl [] [qi "impl"; qi "S"] call_site [IIFn [skip_all_; x_who] [] (x_sig "f" RetNone) call_site [semi (x_try (x_call "a" []))]; IIConst [skip_all_; x_who] [qi "const"] (x_try (x_call "b" [])) [qp ";"]]) out' /\
    itoks out' = itoks out /\
    ~ expands x_env x_core (IImpl [] [qi "impl"; qi "S"] call_site [IIFn [] [] (x_sig "f" RetNone) call_site [semi (x_try (x_call "a" []))]; IIConst [] [qi "const"] (x_try (x_call "b" [])) [qp ";"]]) out.
Proof.
  split; [repeat constructor|]. eexists _, _. split; [eexists; vm_compute; reflexivity|]. split; [eexists; vm_compute; reflexivity|]. split; [vm_compute; reflexivity|].
  intros [cnt H]. vm_compute in H. discriminate.
Qed.
Example C58_ex_trait :
  exists out out', expands x_env x_core (ITrait [x_tag] [qi "trait"; qi "S"] call_site [TIFn [] (x_sig "f" RetNone) call_site [semi (x_try (x_call "a" []))]; TIOther [] [qi "type"; qi "T"; qp ";"]]) out /\
    expands x_env x_core (ITrait [] [qi "trait"; qi "S"] call_site (map (trait_give [x_tag]) [TIFn [] (x_sig "f" RetNone) call_site [semi (x_try (x_call "a" []))]; TIOther [] [qi "type"; qi "T"; qp ";"]])) out' /\
    itoks out' = itoks out.
Proof. eexists _, _. split; [eexists; vm_compute; reflexivity|]. split; [eexists; vm_compute; reflexivity|]. vm_compute. reflexivity. Qed.

(** without [apart]: a method on the member may refer to the method on the container by [$so_far], but not to one written beside it *)
Definition x_over : attr := method_ [qi "log"; qg Parenth [qp "$"; qi "so_far"]].
Theorem C58_method_refuted : exists E f x a es hd sp l out out',
  fl_bindings f = [] /\ all_hooq x /\ node_events (ev_attr E) x es /\ node_events (ev_attr E) a [] /\ Forall (fun i => exists o, node_events (ev_attr E) (own i) o) l /\
  expands E f (IMod (x ++ a) hd sp l) out /\ expands E f (IMod a hd sp (map (give x) l)) out' /\ itoks out' <> itoks out.
Proof.
  exists x_env, xf_core, [x_tag], [], [EvMethod (Insert call_site [qi "tag"; qg Parenth []] false)], [qi "mod"; qi "m"], call_site, [x_fn [x_over] "f" RetNone [semi (x_try (x_call "a" []))]].
  eexists _, _. split; [reflexivity|]. split; [repeat constructor|]. split.
  { eapply ne_hooq; [reflexivity| |apply ne_nil]. left. eapply mn_method; [t_plain|apply MethodProofs.parse_method_ok; reflexivity]. }
  split; [apply ne_nil|]. split.
  { repeat constructor. eexists. eapply ne_hooq; [reflexivity| |apply ne_nil]. left. eapply mn_method; [t_plain|]. apply MethodProofs.parse_method_ok. }
  split; [eexists; vm_compute; reflexivity|]. split; [eexists; vm_compute; reflexivity|]. vm_compute. discriminate.
Qed.
Print Assumptions C58_method_refuted.
(** and a [skip] on the member takes back the [skip_all] of the container for what is nested deeper, though not one written beside it *)
Theorem C58_skip_refuted : exists E f x a es hd sp l out out',
  fl_bindings f = [] /\ all_hooq x /\ node_events (ev_attr E) x es /\ node_events (ev_attr E) a [] /\ Forall (fun i => exists o, node_events (ev_attr E) (own i) o) l /\
  expands E f (IMod (x ++ a) hd sp l) out /\ expands E f (IMod a hd sp (map (give x) l)) out' /\ itoks out' <> itoks out.
Proof.
  exists x_env, xf_core, [skip_all_], [], [EvSkipAll], [qi "mod"; qi "m"], call_site, [x_fn [skip_] "f" RetNone [semi (x_try (x_call "a" []))]].
  eexists _, _. split; [reflexivity|]. split; [repeat constructor|]. split; [t_events|].
  split; [apply ne_nil|]. split; [repeat constructor; eexists; unfold x_fn; cbn [own]; t_events|].
  split; [eexists; vm_compute; reflexivity|]. split; [eexists; vm_compute; reflexivity|]. vm_compute. discriminate.
Qed.
Print Assumptions C58_skip_refuted.
