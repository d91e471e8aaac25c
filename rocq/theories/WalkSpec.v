(** Specification of an expansion: the positions of the source and of the output side by side.  *)
From Coq Require Import String Ascii Bool Arith List.
From Verif Require Import Base Tokens Method Paths Context Flavor Attrs Syntax Render Walker RootAttr RenderSpec AttrSpec SiteSpec ProgSpec SettingSpec.
Import ListNotations.
Open Scope string_scope.
Open Scope list_scope.

(** [#[hooq]] with the root flavor [f] turns [it] into [out] *)
Definition expands (E : env) (f : fcore) (it out : item) : Prop := exists cnt, walk_item E (ctx_new f) it counter0 = Ok (out, cnt).
(** an item as written by the user *)
Definition source (it : item) : Prop := written (item_subs it).
(** [s] is a position of the source and [s'] what became of it *)
Definition position (it out : item) (s s' : site) : Prop :=
  exists i, nth_error (item_sites [] it) i = Some s /\ nth_error (item_sites [] out) i = Some s'.
Definition hooked (s : site) : Prop := s_hook s <> None.

(** the rule for a position *)
Definition rule (f : fcore) (tr : list step) (k : site_kind) (v : expr) : Prop :=
  match k with KTry => question_rule f tr | KReturn => return_rule f tr v | KTail fn => tail_rule f tr fn v end.
(** the rule without hook_targets: what [$count] counts *)
Definition counted (f : fcore) (tr : list step) (k : site_kind) (v : expr) : Prop :=
  skipped tr = false /\
  match k with
  | KTry => True
  | KReturn => calls v (the_tails f tr) \/ fallible f tr /\ ~ calls v (the_ignores f tr)
  | KTail fn => calls v (the_tails f tr) \/ fn = true /\ fallible f tr /\ ~ calls v (the_ignores f tr)
  end.

(** an expression as it stands in the output: a [?] that was consumed is its rendered hook *)
Definition visible (e : expr) : expr := match seen e with ECall a f sp es cs => ECall a (seen f) sp es cs | x => x end.
(** not a [e?], not a call [(e?)(..)] *)
Definition plain (v : expr) : bool := match v with ETry _ _ _ | ECall _ (ETry _ _ _) _ _ _ => false | _ => true end.
(** no method that removes the [?] *)
Definition no_bang (env : attr_env) (f : fcore) : Prop :=
  ae_consume env = false /\ m_exc (fl_method f) = false /\ forall l g, ae_flavor env l = Ok g -> m_exc (fl_method g) = false.
(** the value of a [return] or tail keeps its form *)
Definition keeps_form (E : env) (f : fcore) (v : expr) : Prop := plain v = true \/ no_bang (ev_attr E) f.

(** ** The hook made at a position *)
(** the [e?], [return e] or tail expression as written, without its own hooq attributes *)
Definition without_own_hooq (e : expr) : expr := set_attrs (foreign (attrs_of e)) e.
Record made_at (E : env) (f : fcore) (tr : list step) (s s' : site) (h : hook) (r : expr) : Prop := mk_made {
  md_kind : h_kind h = kind_of (s_kind s);
  md_effect : in_effect f tr (h_ctx h);
  md_span : h_span h = match s_kind s with KTail _ => ts_span (etoks (s_target s')) | _ => s_span s end;
  md_source : h_source h = etoks (without_own_hooq (s_whole s));
  md_consumed : h_consumed h = match s_kind s with
                               | KTry => if m_exc (the_method f tr) then Some (foreign (attrs_of (s_whole s)), s_span s) else None
                               | _ => None
                               end;
  md_rendered : exists ts, render_toks (ev_str E) (h_ctx h) (h_kind h) (h_count h) (h_source h) (etoks (s_target s')) (h_span h) = Ok ts /\ ev_parse E ts = Some r }.

(** ** Counting *)
(** [tally k l n]: [n] of the positions [l] count for [k] *)
Inductive tally (env : attr_env) (f : fcore) (k : kind) : list site -> nat -> Prop :=
| ta_nil : tally env f k [] 0
| ta_yes : forall s tr l n, kind_of (s_kind s) = k -> trail env (s_frames s) tr -> reached f tr = true -> counted f tr (s_kind s) (s_target s) ->
    tally env f k l n -> tally env f k (s :: l) (S n)
| ta_no : forall s tr l n, trail env (s_frames s) tr -> ~ (kind_of (s_kind s) = k /\ reached f tr = true /\ counted f tr (s_kind s) (s_target s)) ->
    tally env f k l n -> tally env f k (s :: l) n
| ta_unreached : forall s l n, unreached env f (s_frames s) -> tally env f k l n -> tally env f k (s :: l) n.
(** a position as it is seen once its operand was walked: its value is what stands in the output *)
Definition as_seen (p : site * site) : site :=
  let '(s, s') := p in mk_site (s_kind s) (s_frames s) (visible (s_target s')) (s_whole s) (s_span s) (s_hook s).
Definition seen_sites (it out : item) : list site := map as_seen (combine (item_sites [] it) (item_sites [] out)).
