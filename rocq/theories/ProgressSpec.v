(** Specification of the reasons for which an expansion may fail.  *)
From Coq Require Import String Ascii Bool Arith List.
From Verif Require Import Base Tokens Method Paths Context Flavor Attrs Syntax Render Walker RootAttr RenderSpec AttrSpec SiteSpec ProgSpec SettingSpec WalkSpec NodeSpec.
Import ListNotations.
Open Scope string_scope.
Open Scope list_scope.

(** the attributes of a reached node cannot be read *)
Definition unreadable (env : attr_env) (f : fcore) (n : node) : Prop :=
  n_place n = PNode /\ exists tr, trail env (n_frames n) tr /\ reached f tr = true /\ forall es, ~ node_events env (n_attrs n) es.

(** the templates in effect can be filled in: every [$] has a name or ends its stream, every name is known, and the first method does not ask
    for a method before it *)
Definition templates_ok (f : fcore) (tr : list step) : Prop :=
  (forall m, In m (all_methods f tr) -> dollars_weak (m_template m)) /\
  (forall m x, In m (all_methods f tr) -> uses x (m_template m) -> is_so_far x = false -> In x builtin \/ exists v, the_binding f x tr = Some v) /\
  (forall pre m x, all_methods f tr = pre ++ [m] -> uses x (m_template m) -> is_so_far x = false).

(** [e'] is something the walker makes of [e] *)
Definition became (E : env) (e e' : expr) : Prop := exists ov c n n', walk_expr E ov c e n = Ok (e', n').
(** a hook is due at [s] whose target became [e'] *)
Definition due (E : env) (f : fcore) (s : site) (tr : list step) (e' : expr) : Prop :=
  trail (ev_attr E) (s_frames s) tr /\ reached f tr = true /\ became E (s_target s) e' /\ rule f tr (s_kind s) (visible e').
Definition unfillable (E : env) (f : fcore) (s : site) : Prop := exists tr e', due E f s tr e' /\ ~ templates_ok f tr.
(** what is put in place of [e'] is not an expression *)
Definition hook_span (s : site) (e' : expr) : span := match s_kind s with KTail _ => ts_span (etoks e') | _ => s_span s end.
Definition renders_to (E : env) (f : fcore) (s : site) (tr : list step) (e' : expr) (ts : list tt) : Prop :=
  exists c n, in_effect f tr c /\
    render_toks (ev_str E) c (kind_of (s_kind s)) n (etoks (without_own_hooq (s_whole s))) (etoks e') (hook_span s e') = Ok ts.
Definition unparsable (E : env) (f : fcore) (s : site) : Prop :=
  exists tr e' ts, due E f s tr e' /\ renders_to E f s tr e' ts /\ ev_parse E ts = None.
