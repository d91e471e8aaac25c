(** Specification: writing other attributes on the nodes of a program.  *)
From Coq Require Import String Ascii Bool Arith List.
From Verif Require Import Base Tokens Method Paths Context Flavor Attrs Syntax MapFacts AttrSpec ShiftSpec.
Import ListNotations.
Open Scope string_scope.
Open Scope list_scope.

(** ** Attributes that say the same *)
(** of every kind of setting the same is in force after them; how it is spelled, and what is overridden on the way, is left open *)
Record same_settings (es es' : list event) : Prop := mk_same_settings {
  sm_method : last_of ev_method es = last_of ev_method es';
  sm_targets : last_of ev_targets es = last_of ev_targets es';
  sm_tails : last_of ev_tails es = last_of ev_tails es';
  sm_ignores : node_ignores es = node_ignores es';
  sm_results : last_of ev_results es = last_of ev_results es';
  sm_macros : last_of ev_macros es = last_of ev_macros es';
  sm_binds : forall k, last_get k (flat_map ev_binds es) = last_get k (flat_map ev_binds es');
  sm_skip : existsb says_skip es = existsb says_skip es';
  sm_skip_all : existsb is_skip_all es = existsb is_skip_all es' }.
Definition same_meaning (env : attr_env) (a a' : list attr) : Prop :=
  foreign a = foreign a' /\ exists es es', node_events env a es /\ node_events env a' es' /\ same_settings es es'.

(** an attribute that is overridden: what it sets is set again later on the same node *)
Record covered (o : event) (es : list event) : Prop := mk_covered {
  cv_method : says ev_method o = true -> existsb (says ev_method) es = true;
  cv_targets : says ev_targets o = true -> existsb (says ev_targets) es = true;
  cv_tails : says ev_tails o = true -> existsb (says ev_tails) es = true;
  cv_ignores : says_ignores o = true -> existsb (says ev_assigned) es = true;
  cv_results : says ev_results o = true -> existsb (says ev_results) es = true;
  cv_macros : says ev_macros o = true -> existsb (says ev_macros) es = true;
  cv_binds : forall k, binds k o = true -> existsb (binds k) es = true;
  cv_skip : says_skip o = true -> existsb says_skip es = true;
  cv_skip_all : is_skip_all o = true -> existsb is_skip_all es = true }.
Definition drops_overridden (env : attr_env) (a a' : list attr) : Prop :=
  foreign a = foreign a' /\ exists l o r, node_events env a (l ++ o :: r) /\ node_events env a' (l ++ r) /\ covered o r.
(** [flavor = f] written as its parts: [method = f], [hook_targets = f], [tail_expr_idents = f], [result_types = f], [hook_in_macros = f], [bindings = f] *)
Definition flavor_parts (f : fcore) : list event :=
  [EvMethod (fl_method f); EvTargets (fl_targets f); EvTailsFrom (fl_tails f) (fl_ignores f); EvResults (fl_results f); EvMacros (fl_macros f); EvBind (fl_bindings f)].
Definition in_parts (env : attr_env) (a a' : list attr) : Prop :=
  foreign a = foreign a' /\ exists l f r, node_events env a (l ++ EvFlavor f :: r) /\ node_events env a' (l ++ flavor_parts f ++ r).

(** ** Programs that differ in attributes only *)
(** expressions on which the macro reads attributes wherever they stand *)
Definition takes (e : expr) : bool :=
  match e with EContinue _ _ | EInfer _ _ | ELit _ _ _ | EPath _ _ | EVerbatim _ | EHook _ _ _ => false | _ => true end.
Section Rewritten.
  Variable R : list attr -> list attr -> Prop.
  Definition like (a a' : list attr) : Prop := a = a' \/ R a a'.
  (** only the attributes of the expression itself.  This is what may change in a place whose text a hook can show by [$source]: the operand of [?] and of [return], a
      tail expression; and where nothing below is read *)
  Inductive own_expr : expr -> expr -> Prop :=
  | oe_same : forall e, own_expr e e
  | oe_own : forall a a' e, takes e = true -> get_attrs e = Some a -> R a a' -> own_expr e (set_attrs a' e).
  (** everywhere else the attributes of any node below may change too *)
  Inductive rw_expr : expr -> expr -> Prop :=
  | rx_own : forall e e', own_expr e e' -> rw_expr e e'
  | rx_array : forall a a' sp es es' cs, like a a' -> rw_exprs es es' -> rw_expr (EArray a sp es cs) (EArray a' sp es' cs)
  | rx_assign : forall a a' l q r r', like a a' -> rw_expr r r' -> rw_expr (EAssign a l q r) (EAssign a' l q r')
  | rx_async : forall a a' kw sp b b', like a a' -> rw_body b b' -> rw_expr (EAsync a kw sp b) (EAsync a' kw sp b')
  | rx_await : forall a a' e e' k, like a a' -> rw_expr e e' -> rw_expr (EAwait a e k) (EAwait a' e' k)
  | rx_binary : forall a a' l l' op r r', like a a' -> rw_expr l l' -> rw_expr r r' -> rw_expr (EBinary a l op r) (EBinary a' l' op r')
  | rx_block : forall a a' lbl sp b b', like a a' -> rw_body b b' -> rw_expr (EBlock a lbl sp b) (EBlock a' lbl sp b')
  | rx_break : forall a a' kw o o', like a a' -> rw_opt o o' -> rw_expr (EBreak a kw o) (EBreak a' kw o')
  | rx_call : forall a a' f f' sp es es' cs, like a a' -> rw_expr f f' -> rw_exprs es es' -> rw_expr (ECall a f sp es cs) (ECall a' f' sp es' cs)
  | rx_cast : forall a a' e e' ty, like a a' -> rw_expr e e' -> rw_expr (ECast a e ty) (ECast a' e' ty)
  | rx_const : forall a a' kw sp b b', like a a' -> rw_body b b' -> rw_expr (EConst a kw sp b) (EConst a' kw sp b')
  | rx_field : forall a a' e e' m, like a a' -> rw_expr e e' -> rw_expr (EField a e m) (EField a' e' m)
  | rx_for : forall a a' kw e e' sp b b', like a a' -> rw_expr e e' -> rw_body b b' -> rw_expr (EForLoop a kw e sp b) (EForLoop a' kw e' sp b')
  | rx_group : forall a a' sp e e', like a a' -> rw_expr e e' -> rw_expr (EGroup a sp e) (EGroup a' sp e')
  | rx_if : forall a a' kw e e' sp b b' ek el el', like a a' -> rw_expr e e' -> rw_body b b' -> rw_opt el el' -> rw_expr (EIf a kw e sp b ek el) (EIf a' kw e' sp b' ek el')
  | rx_index : forall a a' e e' sp i i', like a a' -> rw_expr e e' -> rw_expr i i' -> rw_expr (EIndex a e sp i) (EIndex a' e' sp i')
  | rx_let : forall a a' kw e e', like a a' -> rw_expr e e' -> rw_expr (ELet a kw e) (ELet a' kw e')
  | rx_loop : forall a a' kw sp b b', like a a' -> rw_body b b' -> rw_expr (ELoop a kw sp b) (ELoop a' kw sp b')
  | rx_match : forall a a' kw e e' sp l l', like a a' -> rw_expr e e' -> rw_arms l l' -> rw_expr (EMatch a kw e sp l) (EMatch a' kw e' sp l')
  | rx_method : forall a a' e e' m sp es es' cs, like a a' -> rw_expr e e' -> rw_exprs es es' -> rw_expr (EMethodCall a e m sp es cs) (EMethodCall a' e' m sp es' cs)
  | rx_paren : forall a a' sp e e', like a a' -> rw_expr e e' -> rw_expr (EParen a sp e) (EParen a' sp e')
  | rx_range : forall a a' s s' lim t t', like a a' -> rw_opt s s' -> rw_opt t t' -> rw_expr (ERange a s lim t) (ERange a' s' lim t')
  | rx_raw : forall a a' kw e e', like a a' -> rw_expr e e' -> rw_expr (ERawAddr a kw e) (ERawAddr a' kw e')
  | rx_ref : forall a a' kw e e', like a a' -> rw_expr e e' -> rw_expr (EReference a kw e) (EReference a' kw e')
  | rx_repeat : forall a a' sp e e' sm len len', like a a' -> rw_expr e e' -> rw_expr len len' -> rw_expr (ERepeat a sp e sm len) (ERepeat a' sp e' sm len')
  | rx_struct : forall a a' p sp fs fs' cs dots rest rest', like a a' -> rw_fields fs fs' -> rw_opt rest rest' -> rw_expr (EStruct a p sp fs cs dots rest) (EStruct a' p sp fs' cs dots rest')
  | rx_try_block : forall a a' kw sp b b', like a a' -> rw_body b b' -> rw_expr (ETryBlock a kw sp b) (ETryBlock a' kw sp b')
  | rx_tuple : forall a a' sp es es' cs, like a a' -> rw_exprs es es' -> rw_expr (ETuple a sp es cs) (ETuple a' sp es' cs)
  | rx_unary : forall a a' op e e', like a a' -> rw_expr e e' -> rw_expr (EUnary a op e) (EUnary a' op e')
  | rx_unsafe : forall a a' kw sp b b', like a a' -> rw_body b b' -> rw_expr (EUnsafe a kw sp b) (EUnsafe a' kw sp b')
  | rx_while : forall a a' kw e e' sp b b', like a a' -> rw_expr e e' -> rw_body b b' -> rw_expr (EWhile a kw e sp b) (EWhile a' kw e' sp b')
  | rx_yield : forall a a' kw o o', like a a' -> rw_opt o o' -> rw_expr (EYield a kw o) (EYield a' kw o')
  | rx_closure : forall a a' hd out e e', like a a' -> own_expr e e' -> rw_expr (EClosure a hd out e) (EClosure a' hd out e')
  | rx_closure_block : forall a a' hd out ba ba' lbl sp b b', like a a' -> like ba ba' -> rw_body b b' ->
      rw_expr (EClosure a hd out (EBlock ba lbl sp b)) (EClosure a' hd out (EBlock ba' lbl sp b'))
  with rw_exprs : list expr -> list expr -> Prop :=
  | rxs_nil : rw_exprs [] []
  | rxs_cons : forall e e' l l', rw_expr e e' -> rw_exprs l l' -> rw_exprs (e :: l) (e' :: l')
  with rw_opt : option expr -> option expr -> Prop :=
  | ro_none : rw_opt None None
  | ro_some : forall e e', rw_expr e e' -> rw_opt (Some e) (Some e')
  (** a block: the last statement is its tail if it is an expression without semicolon *)
  with rw_body : list stmt -> list stmt -> Prop :=
  | rb_nil : rw_body [] []
  | rb_tail : forall e e', own_expr e e' -> rw_body [SExpr e None] [SExpr e' None]
  | rb_last : forall s s', (forall e, s <> SExpr e None) -> rw_stmt s s' -> rw_body [s] [s']
  | rb_cons : forall s s' t t' b b', rw_stmt s s' -> rw_body (t :: b) (t' :: b') -> rw_body (s :: t :: b) (s' :: t' :: b')
  with rw_stmt : stmt -> stmt -> Prop :=
  | rs_same : forall s, rw_stmt s s
  | rs_let : forall a a' pat e e' ek el el' semi, like a a' -> rw_expr e e' -> rw_opt el el' -> rw_stmt (SLocalInit a pat e ek el semi) (SLocalInit a' pat e' ek el' semi)
  | rs_item : forall i i', rw_item i i' -> rw_stmt (SItem i) (SItem i')
  | rs_expr : forall e e' semi, rw_expr e e' -> rw_stmt (SExpr e semi) (SExpr e' semi)
  | rs_macro : forall a a' m semi, like a a' -> rw_stmt (SMacro a m semi) (SMacro a' m semi)
  (** the body of an arm is a tail, unless it is a block *)
  with rw_arm : arm -> arm -> Prop :=
  | ra_tail : forall a pat ik g g' arrow e e' comma, rw_opt g g' -> own_expr e e' -> rw_arm (Arm a pat ik g arrow e comma) (Arm a pat ik g' arrow e' comma)
  | ra_block : forall a pat ik g g' arrow ba ba' lbl sp b b' comma, rw_opt g g' -> like ba ba' -> rw_body b b' ->
      rw_arm (Arm a pat ik g arrow (EBlock ba lbl sp b) comma) (Arm a pat ik g' arrow (EBlock ba' lbl sp b') comma)
  with rw_arms : list arm -> list arm -> Prop :=
  | ras_nil : rw_arms [] []
  | ras_cons : forall x x' l l', rw_arm x x' -> rw_arms l l' -> rw_arms (x :: l) (x' :: l')
  with rw_fields : list fieldv -> list fieldv -> Prop :=
  | rfs_nil : rw_fields [] []
  | rfs_cons : forall a a' m colon e e' l l', like a a' -> rw_expr e e' -> rw_fields l l' -> rw_fields (FieldV a m colon e :: l) (FieldV a' m colon e' :: l')
  with rw_item : item -> item -> Prop :=
  | ri_same : forall i, rw_item i i
  | ri_fn : forall a a' vis s sp b b', like a a' -> rw_body b b' -> rw_item (IFn a vis s sp b) (IFn a' vis s sp b')
  | ri_impl : forall a a' hd sp l l', like a a' -> rw_impls l l' -> rw_item (IImpl a hd sp l) (IImpl a' hd sp l')
  | ri_mod : forall a a' hd sp l l', like a a' -> rw_items l l' -> rw_item (IMod a hd sp l) (IMod a' hd sp l')
  | ri_const : forall a a' hd e e' semi, like a a' -> rw_expr e e' -> rw_item (IConst a hd e semi) (IConst a' hd e' semi)
  | ri_static : forall a a' hd e e' semi, like a a' -> rw_expr e e' -> rw_item (IStatic a hd e semi) (IStatic a' hd e' semi)
  | ri_trait : forall a a' hd sp l l', like a a' -> rw_traits l l' -> rw_item (ITrait a hd sp l) (ITrait a' hd sp l')
  | ri_macro : forall a a' m semi, like a a' -> rw_item (IMacro a None m semi) (IMacro a' None m semi)
  with rw_items : list item -> list item -> Prop :=
  | ris_nil : rw_items [] []
  | ris_cons : forall x x' l l', rw_item x x' -> rw_items l l' -> rw_items (x :: l) (x' :: l')
  with rw_impls : list impl_item -> list impl_item -> Prop :=
  | rm_nil : rw_impls [] []
  | rm_fn : forall a a' vis s sp b b' l l', like a a' -> rw_body b b' -> rw_impls l l' -> rw_impls (IIFn a vis s sp b :: l) (IIFn a' vis s sp b' :: l')
  | rm_const : forall a a' hd e e' semi l l', like a a' -> rw_expr e e' -> rw_impls l l' -> rw_impls (IIConst a hd e semi :: l) (IIConst a' hd e' semi :: l')
  | rm_macro : forall a a' m semi l l', like a a' -> rw_impls l l' -> rw_impls (IIMacro a m semi :: l) (IIMacro a' m semi :: l')
  | rm_other : forall a ts l l', rw_impls l l' -> rw_impls (IIOther a ts :: l) (IIOther a ts :: l')
  with rw_traits : list trait_item -> list trait_item -> Prop :=
  | rt_nil : rw_traits [] []
  | rt_fn : forall a a' s sp b b' l l', like a a' -> rw_body b b' -> rw_traits l l' -> rw_traits (TIFn a s sp b :: l) (TIFn a' s sp b' :: l')
  | rt_const : forall a a' hd e e' semi l l', like a a' -> rw_expr e e' -> rw_traits l l' -> rw_traits (TIConst a hd e semi :: l) (TIConst a' hd e' semi :: l')
  | rt_macro : forall a a' m semi l l', like a a' -> rw_traits l l' -> rw_traits (TIMacro a m semi :: l) (TIMacro a' m semi :: l')
  | rt_other : forall a ts l l', rw_traits l l' -> rw_traits (TIOther a ts :: l) (TIOther a ts :: l').
End Rewritten.
