(** Specification of where hooks can go: the positions of a program, independent of the walker.

    [sites] lists every [?], every [return v] and every tail position of a program in evaluation order, each
    with the nodes that enclose it.  It is the same function for the input and for the output: in the output a
    position may carry a hook. *)
From Coq Require Import String Ascii Bool Arith List.
From Verif Require Import Base Tokens Method Paths Context Flavor Attrs Syntax AttrSpec.
Import ListNotations.
Open Scope string_scope.
Open Scope list_scope.

(** * What encloses a position (innermost first) *)
Inductive frame : Type :=
| FAttrs (l : list attr)                                     (* a node with these attributes *)
| FScope                                                     (* a block, the arms of a match, the branches of an if *)
| FFn (s : sig)                                              (* the body of a function *)
| FClosure (a : list attr) (hd : list tt) (out : ret_ty)     (* the body of a closure *)
| FMacro                                                     (* the arguments of a macro call *)
| FDead.                                                     (* left side of an assignment, macro_rules *)

(** the bool: tail of a function or closure (else of another block or of a match arm) *)
Inductive site_kind : Type := KTry | KReturn | KTail (fn_tail : bool).
Definition kind_of (k : site_kind) : kind := match k with KTry => Question | KReturn => Return | KTail _ => TailExpr end.

Record site : Type := mk_site {
  s_kind : site_kind;
  s_frames : list frame;          (* innermost first; the first frame has the attributes of the [?], [return] or tail itself *)
  s_target : expr;                (* what a hook would apply to *)
  s_whole : expr;                 (* the [e?], [return e] or tail expression *)
  s_span : span;                  (* of the [?] or of [return] *)
  s_hook : option (hook * expr)   (* the hook applied here and what stands in the output for the hooked target *) }.

(** a hook of kind [k] applied at this position, not one that replaced a [?] of its own *)
Definition own (k : kind) (h : hook) : bool := kind_eqb (h_kind h) k && match h_consumed h with None => true | Some _ => false end.
Definition hook_on (k : kind) (e : expr) : option (hook * expr) :=
  match e with EHook h _ r => if own k h then Some (h, r) else None | _ => None end.
Definition under_hook (k : kind) (e : expr) : expr :=
  match e with EHook h o _ => if own k h then o else e | _ => e end.
Definition unhook {A} (k : kind) (f : expr -> A) (e : expr) : A :=
  match e with EHook h o _ => if own k h then f o else f e | _ => f e end.
Definition attrs_of (e : expr) : list attr :=
  match get_attrs e with
  | Some a => a
  | None => match e with EHook h _ _ => match h_consumed h with Some (a, _) => a | None => [] end | _ => [] end
  end.
Definition verbatim (e : expr) : bool := match e with EVerbatim _ => true | _ => false end.

(** all elements with [f], the last one with [g] *)
Definition last_map {A B} (f g : A -> list B) : list A -> list B :=
  fix go l := match l with
  | [] => []
  | x :: r => match r with [] => g x | _ => f x ++ go r end
  end.
Definition opt_list {A B} (f : A -> list B) (o : option A) : list B := match o with Some x => f x | None => [] end.

(** the tail position of a block: the last statement if it is an expression without semicolon *)
Definition at_tail (inner : expr -> list site) (fn_tail : bool) (fr : list frame) (e : expr) : list site :=
  unhook TailExpr inner e ++
  (if verbatim (under_hook TailExpr e) then []
   else [mk_site (KTail fn_tail) (FAttrs (attrs_of (under_hook TailExpr e)) :: fr) (under_hook TailExpr e) (under_hook TailExpr e) call_site
                 (hook_on TailExpr e)]).

(** [t]: [Some true] last statement of a function or closure body, [Some false] of another block, [None] not the last *)
Fixpoint sites (fr : list frame) (e : expr) {struct e} : list site :=
  match e with
  | ETry a e0 sp =>
      let fr' := FAttrs a :: fr in
      unhook Question (sites fr') e0 ++
      [mk_site KTry fr' (under_hook Question e0) (ETry a e0 sp) sp (hook_on Question e0)]
  | EReturn a sp o =>
      let fr' := FAttrs a :: fr in
      match o with
      | None => []
      | Some e0 => unhook Return (sites fr') e0 ++
                   [mk_site KReturn fr' (under_hook Return e0) (EReturn a sp (Some e0)) sp (hook_on Return e0)]
      end
  | EHook h o r =>
      match h_consumed h with
      | Some (a, sp) => sites (FAttrs a :: fr) o ++ [mk_site KTry (FAttrs a :: fr) o (ETry a o sp) sp (Some (h, r))]
      | None => sites fr o
      end
  | EArray a _ es _ | ETuple a _ es _ => flat_map (sites (FAttrs a :: fr)) es
  | EAssign a l _ r => sites (FDead :: FAttrs a :: fr) l ++ sites (FAttrs a :: fr) r
  | EAsync a _ _ b | EBlock a _ _ b | EConst a _ _ b | ELoop a _ _ b | ETryBlock a _ _ b | EUnsafe a _ _ b =>
      let fr' := FScope :: FAttrs a :: fr in last_map (stmt_sites None fr') (stmt_sites (Some false) fr') b
  | EAwait a e0 _ | ECast a e0 _ | EField a e0 _ | EGroup a _ e0 | ELet a _ e0 | EParen a _ e0 | ERawAddr a _ e0
  | EReference a _ e0 | EUnary a _ e0 => sites (FAttrs a :: fr) e0
  | EBinary a l _ r | EIndex a l _ r | ERepeat a _ l _ r => sites (FAttrs a :: fr) l ++ sites (FAttrs a :: fr) r
  | EBreak a _ o | EYield a _ o => opt_list (sites (FAttrs a :: fr)) o
  | ECall a f _ es _ | EMethodCall a f _ _ es _ => sites (FAttrs a :: fr) f ++ flat_map (sites (FAttrs a :: fr)) es
  | EClosure a hd out body =>
      let fr' := FClosure a hd out :: FAttrs a :: fr in
      match body with
      | EBlock ba _ _ b =>
          let fr'' := FScope :: FAttrs ba :: fr' in last_map (stmt_sites None fr'') (stmt_sites (Some true) fr'') b
      | _ => at_tail (sites fr') true fr' body
      end
  | EForLoop a _ e0 _ b | EWhile a _ e0 _ b =>
      sites (FAttrs a :: fr) e0 ++
      (let fr' := FScope :: FAttrs a :: fr in last_map (stmt_sites None fr') (stmt_sites (Some false) fr') b)
  | EIf a _ c _ b _ el =>
      let fr' := FScope :: FAttrs a :: fr in
      sites (FAttrs a :: fr) c ++ last_map (stmt_sites None fr') (stmt_sites (Some false) fr') b ++ opt_list (sites fr') el
  | EMacro a m => mac_sites (FAttrs a :: fr) m
  | EMatch a _ e0 _ arms => sites (FAttrs a :: fr) e0 ++ flat_map (arm_sites (FScope :: FAttrs a :: fr)) arms
  | ERange a s _ t => opt_list (sites (FAttrs a :: fr)) s ++ opt_list (sites (FAttrs a :: fr)) t
  | EStruct a _ _ fs _ _ rest => flat_map (field_sites (FAttrs a :: fr)) fs ++ opt_list (sites (FAttrs a :: fr)) rest
  | EContinue _ _ | EInfer _ _ | ELit _ _ _ | EPath _ _ | EVerbatim _ => []
  end
with stmt_sites (t : option bool) (fr : list frame) (s : stmt) {struct s} : list site :=
  match s with
  | SLocal _ _ _ => []
  | SLocalInit a _ e _ el _ => sites (FAttrs a :: fr) e ++ opt_list (sites (FAttrs a :: fr)) el
  | SItem i => item_sites fr i
  | SExpr e semi =>
      match semi, t with
      | None, Some fn_tail => at_tail (sites fr) fn_tail fr e
      | _, _ => sites fr e
      end
  | SMacro a m _ => mac_sites (FAttrs a :: fr) m
  end
with item_sites (fr : list frame) (i : item) {struct i} : list site :=
  match i with
  | IFn a _ s _ b => let fr' := FScope :: FFn s :: FAttrs a :: fr in last_map (stmt_sites None fr') (stmt_sites (Some true) fr') b
  | IImpl a _ _ its => flat_map (impl_sites (FAttrs a :: fr)) its
  | IMod a _ _ its => flat_map (item_sites (FAttrs a :: fr)) its
  | IConst a _ e _ | IStatic a _ e _ => sites (FAttrs a :: fr) e
  | ITrait a _ _ its => flat_map (trait_sites (FAttrs a :: fr)) its
  | IMacro a (Some _) m _ => mac_sites (FDead :: FAttrs a :: fr) m
  | IMacro a None m _ => mac_sites (FAttrs a :: fr) m
  | IOther _ _ => []
  end
with impl_sites (fr : list frame) (i : impl_item) {struct i} : list site :=
  match i with
  | IIFn a _ s _ b => let fr' := FScope :: FFn s :: FAttrs a :: fr in last_map (stmt_sites None fr') (stmt_sites (Some true) fr') b
  | IIConst a _ e _ => sites (FAttrs a :: fr) e
  | IIMacro a m _ => mac_sites (FAttrs a :: fr) m
  | IIOther _ _ => []
  end
with trait_sites (fr : list frame) (i : trait_item) {struct i} : list site :=
  match i with
  | TIConst a _ e _ => sites (FAttrs a :: fr) e
  | TIFn a s _ b => let fr' := FScope :: FFn s :: FAttrs a :: fr in last_map (stmt_sites None fr') (stmt_sites (Some true) fr') b
  | TIMacro a m _ => mac_sites (FAttrs a :: fr) m
  | TIOther _ _ => []
  end
with arm_sites (fr : list frame) (r : arm) {struct r} : list site :=
  match r with
  | Arm _ _ _ guard _ body _ =>
      opt_list (sites fr) guard ++
      match body with EBlock _ _ _ _ => sites fr body | _ => at_tail (sites fr) false fr body end
  end
with field_sites (fr : list frame) (f : fieldv) {struct f} : list site :=
  match f with FieldV a _ _ e => sites (FAttrs a :: fr) e end
with mac_sites (fr : list frame) (m : mac) {struct m} : list site :=
  match m with
  | Mac _ _ _ _ None => []
  | Mac _ _ _ _ (Some l) => flat_map (ev_sites (FMacro :: fr)) l
  end
with ev_sites (fr : list frame) (v : evaluable) {struct v} : list site :=
  match v with
  | VFile _ its _ => flat_map (item_sites fr) its
  | VItem i _ => item_sites fr i
  | VExpr e _ => sites fr e
  | VStmt s _ => stmt_sites None fr s
  end.
