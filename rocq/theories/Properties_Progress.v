(** Property C42: an expansion fails only for one of three reasons.

    [unreadable]: the hooq attributes of a reached node have no meaning (AttrSpec.v); [unfillable]: a hook is due whose
    template has a [$] without a name or an unknown variable; [unparsable]: a hook is due and what is put in place of the
    expression is not an expression (ProgressSpec.v). *)
From Coq Require Import String Ascii Bool Arith Lia List.
From Verif Require Import Base Tokens Method Paths Context Flavor Attrs Syntax Render Walker RootAttr RenderSpec AttrSpec SiteSpec ProgSpec SettingSpec WalkSpec NodeSpec NodeProofs ProgressSpec ProgressProofs PresetProofs TomlStore FlavorSpec FlavorStoreProofs Properties_Attrs WalkExamples.
Import ListNotations.
Open Scope string_scope.
Open Scope list_scope.

(** looking up a flavor never panics *)
Definition loads (env : attr_env) : Prop := forall l q, ae_flavor env l <> Panic q.

(** this is so for every look-up the macro can make: in a process that has expanded [h] before, with any file on disk *)
Definition real_lookup (env : attr_env) : Prop :=
  exists te h dir d, forall p, ae_flavor env p = flavor_lookup te dir d (after_history te h []) p.
Theorem C42_lookup env : real_lookup env -> loads env.
Proof.
  intros (te & h & dir & d & H) l q E. rewrite H in E. unfold flavor_lookup in E.
  destruct (fst (with_hooq_toml te dir d (after_history te h []))) as [fs|x|x] eqn:Ew; cbn [bindR] in E; [|discriminate|exact (cache_no_panic te h dir d x Ew)].
  unfold get_flavor in E. destruct (get_flavor_inner fs l); discriminate.
Qed.
Print Assumptions C42_lookup.

(** an error has one of the first two reasons, a panic the third *)
Theorem C42_failure E f it : source it -> real_lookup (ev_attr E) ->
  match walk_item E (ctx_new f) it counter0 with
  | Ok _ => True
  | Err _ => (exists n, In n (item_nodes [] it) /\ unreadable (ev_attr E) f n) \/ (exists s, In s (item_sites [] it) /\ unfillable E f s)
  | Panic m => m = "parse_quote!" /\ exists s, In s (item_sites [] it) /\ unparsable E f s
  end.
Proof. intros Hs Hl. exact (failure E f (C42_lookup _ Hl) it Hs). Qed.
Print Assumptions C42_failure.

(** without these reasons the expansion succeeds *)
Theorem C42_success E f it : source it -> real_lookup (ev_attr E) ->
  (forall n tr, In n (item_nodes [] it) -> n_place n = PNode -> trail (ev_attr E) (n_frames n) tr -> reached f tr = true ->
     exists es, node_events (ev_attr E) (n_attrs n) es) ->
  (forall s tr e', In s (item_sites [] it) -> due E f s tr e' -> templates_ok f tr) ->
  (forall s tr e' ts, In s (item_sites [] it) -> due E f s tr e' -> renders_to E f s tr e' ts -> ev_parse E ts <> None) ->
  exists out, expands E f it out.
Proof. intros Hs Hl. exact (success E f it Hs (C42_lookup _ Hl)). Qed.
Print Assumptions C42_success.

(** the first condition is also necessary: unreadable attributes are never ignored in a part that is entered *)
Theorem C42_readable E f it out n : expands E f it out -> source it -> In n (item_nodes [] it) -> ~ unreadable (ev_attr E) f n.
Proof.
  intros H Hs Hi (Hp & tr & Ht & Hr & Hno). destruct (spot_total E f it out n H Hs Hi) as (n' & Hn).
  destruct (noted_readable E f n n' (spot_noted E f it out n n' H Hs Hn) Hp tr Ht Hr) as (es & Hes). exact (Hno es Hes).
Qed.
Print Assumptions C42_readable.

(** the presets: no condition on templates *)
Theorem C42_presets_parse E ft p g it : source it -> loads (ev_attr E) -> get_flavor (preset_flavors ft) p = Ok g ->
  (forall n, In n (item_nodes [] it) -> node_events (ev_attr E) (n_attrs n) []) ->
  (forall s tr e' ts, In s (item_sites [] it) -> due E (f_core g) s tr e' -> renders_to E (f_core g) s tr e' ts -> ev_parse E ts <> None) ->
  exists out, expands E (f_core g) it out.
Proof. exact (presets E ft p g it). Qed.
Print Assumptions C42_presets_parse.

Lemma x_loads : loads xa_env.
Proof. intros l q. cbn. destruct l as [|a [|b l]]; try discriminate; [destruct (string_dec a "my") as [->|Hn]; [discriminate|]|]; repeat (match goal with |- context[match ?x with _ => _ end] => destruct x end); discriminate. Qed.
Definition x_features : features := mk_features true true true true true "hooq".
(** #[inline] fn main() -> std::Result { a(b()?)?; let f = || g()?; return Err(1); Ok(i()?) } *)
Definition x_plain : item :=
  x_fn [xa_word ["inline"]] "main" x_result
    [semi (x_try (x_call "a" [x_try (x_call "b" [])])); x_let [] "f" (x_closure RetNone (x_try (x_call "g" [])));
     semi (x_ret (x_call "Err" [ELit [] (LUsize 1) call_site])); tail (x_call "Ok" [x_try (x_call "i" [])])].
(** with every preset: [p] is any name the store knows *)
Example C42_ex_presets : Forall (fun p => exists g, get_flavor (preset_flavors x_features) p = Ok g /\ exists out, expands x_env (f_core g) x_plain out)
  [["default"]; ["empty"]; ["hook"]; ["log"]; ["log"; "warn"]; ["anyhow"]; ["eyre"]; ["color_eyre"]; ["tracing"; "trace"]].
Proof.
  assert (H : forall p g, get_flavor (preset_flavors x_features) p = Ok g -> exists out, expands x_env (f_core g) x_plain out).
  { intros p g Hg. eapply C42_presets_parse; [reflexivity|exact x_loads|exact Hg| |intros; discriminate].
    intros n Hn. vm_compute in Hn. repeat match type of Hn with _ \/ _ => destruct Hn as [<-|Hn] | False => destruct Hn end; cbn [n_attrs]; t_events. }
  repeat (apply Forall_cons; [match goal with |- exists g, get_flavor _ ?p = _ /\ _ => eexists; split; [vm_compute; reflexivity|apply (H p); vm_compute; reflexivity] end|]). apply Forall_nil.
Qed.
(** each reason on its own: an unknown variable, an attribute without meaning, a result that does not parse *)
Example C42_ex_variable : let it := x_fn [method_ [qp "."; qi "log"; qg Parenth [qp "$"; qi "nope"]]] "f" RetNone [semi (x_try (x_call "a" []))] in
  source it /\ (exists e, walk_item x_env (ctx_new x_core) it counter0 = Err e).
Proof. split; [reflexivity|eexists; vm_compute; reflexivity]. Qed.
Example C42_ex_attribute : let it := x_fn [] "f" RetNone [semi (x_try_a [xa_word ["hooq"; "skpi"]] (x_call "a" []))] in
  source it /\ (exists e, walk_item x_env (ctx_new x_core) it counter0 = Err e).
Proof. split; [reflexivity|eexists; vm_compute; reflexivity]. Qed.
Definition x_no_parse : env := mk_env (ev_attr x_env) (fun _ => None) (ev_str x_env).
Example C42_ex_parse : let it := x_fn [] "f" RetNone [semi (x_try (x_call "a" []))] in
  source it /\ walk_item x_no_parse (ctx_new x_core) it counter0 = Panic "parse_quote!".
Proof. split; [reflexivity|vm_compute; reflexivity]. Qed.
(** a skipped [?] does not have to be fillable *)
Example C42_ex_skipped : let it := x_fn [method_ [qp "."; qi "log"; qg Parenth [qp "$"; qi "nope"]]] "f" RetNone [semi (x_try_a [skip_] (x_call "a" []))] in
  source it /\ exists out, expands x_env x_core it out.
Proof. split; [reflexivity|eexists; eexists; vm_compute; reflexivity]. Qed.
(** the look-up without a hooq.toml, and an item that names a preset in an attribute *)
Definition x_te : toml_env := mk_toml_env x_features (fun _ => None) (fun _ => None) (fun _ => None).
Definition xr_env : env := mk_env (mk_attr_env false (flavor_lookup x_te "." DiskAbsent (after_history x_te [("other", DiskNotToml)] [])) (ae_mnv xa_env)) (ev_parse x_env) (ev_str x_env).
Example C42_ex_lookup : real_lookup (ev_attr xr_env) /\
  (let it := x_fn [xa_set "flavor" (VStr "log::warn" call_site)] "f" x_result [semi (x_try (x_call "a" []))] in
   source it /\ (exists out, expands xr_env x_core it out) /\
   exists e, walk_item xr_env (ctx_new x_core) (x_fn [xa_set "flavor" (VStr "log::none" call_site)] "f" x_result []) counter0 = Err e).
Proof.
  split; [exists x_te, [("other", DiskNotToml)], ".", DiskAbsent; intros p; reflexivity|]. cbv zeta. split; [reflexivity|]. split; [|eexists; vm_compute; reflexivity].
  eexists; eexists; vm_compute; reflexivity.
Qed.
