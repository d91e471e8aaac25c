(** Specification of programs: their sub-expressions, and a program without hooks and hooq attributes.  *)
From Coq Require Import String Ascii Bool Arith List.
From Verif Require Import Base Tokens Method Paths Context Flavor Attrs Syntax AttrSpec SiteSpec.
Import ListNotations.
Open Scope string_scope.
Open Scope list_scope.

(** all sub-expressions at any depth, operands before the expression they belong to; what a hook was rendered to is not looked into *)
Fixpoint subs (e : expr) : list expr :=
  match e with
  | EArray _ _ es _ | ETuple _ _ es _ => flat_map subs es
  | EAssign _ l _ r | EBinary _ l _ r | EIndex _ l _ r | ERepeat _ _ l _ r => subs l ++ subs r
  | EAsync _ _ _ b | EBlock _ _ _ b | EConst _ _ _ b | ELoop _ _ _ b | ETryBlock _ _ _ b | EUnsafe _ _ _ b => flat_map stmt_subs b
  | EAwait _ e0 _ | ECast _ e0 _ | EField _ e0 _ | EGroup _ _ e0 | ELet _ _ e0 | EParen _ _ e0 | ERawAddr _ _ e0
  | EReference _ _ e0 | EUnary _ _ e0 | ETry _ e0 _ | EClosure _ _ _ e0 => subs e0
  | EBreak _ _ o | EYield _ _ o | EReturn _ _ o => opt_list subs o
  | ECall _ f _ es _ | EMethodCall _ f _ _ es _ => subs f ++ flat_map subs es
  | EForLoop _ _ e0 _ b | EWhile _ _ e0 _ b => subs e0 ++ flat_map stmt_subs b
  | EIf _ _ c _ b _ el => subs c ++ flat_map stmt_subs b ++ opt_list subs el
  | EMacro _ m => mac_subs m
  | EMatch _ _ e0 _ arms => subs e0 ++ flat_map arm_subs arms
  | ERange _ s _ t => opt_list subs s ++ opt_list subs t
  | EStruct _ _ _ fs _ _ rest => flat_map field_subs fs ++ opt_list subs rest
  | EContinue _ _ | EInfer _ _ | ELit _ _ _ | EPath _ _ | EVerbatim _ => []
  | EHook _ o _ => subs o
  end ++ [e]
with stmt_subs (s : stmt) : list expr :=
  match s with
  | SLocal _ _ _ => []
  | SLocalInit _ _ e _ el _ => subs e ++ opt_list subs el
  | SItem i => item_subs i
  | SExpr e _ => subs e
  | SMacro _ m _ => mac_subs m
  end
with item_subs (i : item) : list expr :=
  match i with
  | IFn _ _ _ _ b => flat_map stmt_subs b
  | IImpl _ _ _ its => flat_map impl_subs its
  | IMod _ _ _ its => flat_map item_subs its
  | IConst _ _ e _ | IStatic _ _ e _ => subs e
  | ITrait _ _ _ its => flat_map trait_subs its
  | IMacro _ _ m _ => mac_subs m
  | IOther _ _ => []
  end
with impl_subs (i : impl_item) : list expr :=
  match i with
  | IIFn _ _ _ _ b => flat_map stmt_subs b
  | IIConst _ _ e _ => subs e
  | IIMacro _ m _ => mac_subs m
  | IIOther _ _ => []
  end
with trait_subs (i : trait_item) : list expr :=
  match i with
  | TIConst _ _ e _ => subs e
  | TIFn _ _ _ b => flat_map stmt_subs b
  | TIMacro _ m _ => mac_subs m
  | TIOther _ _ => []
  end
with arm_subs (r : arm) : list expr :=
  match r with Arm _ _ _ guard _ body _ => opt_list subs guard ++ subs body end
with field_subs (f : fieldv) : list expr :=
  match f with FieldV _ _ _ e => subs e end
with mac_subs (m : mac) : list expr :=
  match m with
  | Mac _ _ _ _ None => []
  | Mac _ _ _ _ (Some l) => flat_map ev_subs l
  end
with ev_subs (v : evaluable) : list expr :=
  match v with
  | VFile _ its _ => flat_map item_subs its
  | VItem i _ => item_subs i
  | VExpr e _ => subs e
  | VStmt s _ => stmt_subs s
  end.

Definition hooks_of (l : list expr) : list hook := flat_map (fun e => match e with EHook h _ _ => [h] | _ => [] end) l.
(** a program as the user wrote it has no hooks *)
Definition written (l : list expr) : Prop := hooks_of l = [].

(** * The program behind an expansion: hooks undone (with the [?] they consumed), hooq attributes dropped.
    The tokens of a macro call whose arguments were read are those of its arguments.  *)
Fixpoint bare (e : expr) : expr :=
  match e with
  | EArray a sp es cs => EArray (foreign a) sp (map bare es) cs
  | EAssign a l q r => EAssign (foreign a) (bare l) q (bare r)
  | EAsync a kw sp b => EAsync (foreign a) kw sp (map stmt_bare b)
  | EAwait a e0 k => EAwait (foreign a) (bare e0) k
  | EBinary a l o r => EBinary (foreign a) (bare l) o (bare r)
  | EBlock a lbl sp b => EBlock (foreign a) lbl sp (map stmt_bare b)
  | EBreak a kw o => EBreak (foreign a) kw (option_map bare o)
  | ECall a f sp es cs => ECall (foreign a) (bare f) sp (map bare es) cs
  | ECast a e0 ty => ECast (foreign a) (bare e0) ty
  | EClosure a hd out body => EClosure (foreign a) hd out (bare body)
  | EConst a kw sp b => EConst (foreign a) kw sp (map stmt_bare b)
  | EContinue a kw => EContinue (foreign a) kw
  | EField a e0 m => EField (foreign a) (bare e0) m
  | EForLoop a kw e0 sp b => EForLoop (foreign a) kw (bare e0) sp (map stmt_bare b)
  | EGroup a sp e0 => EGroup (foreign a) sp (bare e0)
  | EIf a kw c sp b ek el => EIf (foreign a) kw (bare c) sp (map stmt_bare b) ek (option_map bare el)
  | EIndex a e0 sp i => EIndex (foreign a) (bare e0) sp (bare i)
  | EInfer a kw => EInfer (foreign a) kw
  | ELet a kw e0 => ELet (foreign a) kw (bare e0)
  | ELit a l sp => ELit (foreign a) l sp
  | ELoop a kw sp b => ELoop (foreign a) kw sp (map stmt_bare b)
  | EMacro a m => EMacro (foreign a) (mac_bare m)
  | EMatch a kw e0 sp arms => EMatch (foreign a) kw (bare e0) sp (map arm_bare arms)
  | EMethodCall a e0 m sp es cs => EMethodCall (foreign a) (bare e0) m sp (map bare es) cs
  | EParen a sp e0 => EParen (foreign a) sp (bare e0)
  | EPath a p => EPath (foreign a) p
  | ERange a s lim t => ERange (foreign a) (option_map bare s) lim (option_map bare t)
  | ERawAddr a kw e0 => ERawAddr (foreign a) kw (bare e0)
  | EReference a kw e0 => EReference (foreign a) kw (bare e0)
  | ERepeat a sp e0 semi len => ERepeat (foreign a) sp (bare e0) semi (bare len)
  | EReturn a sp o => EReturn (foreign a) sp (option_map bare o)
  | EStruct a p sp fs cs dots rest => EStruct (foreign a) p sp (map field_bare fs) cs dots (option_map bare rest)
  | ETry a e0 sp => ETry (foreign a) (bare e0) sp
  | ETryBlock a kw sp b => ETryBlock (foreign a) kw sp (map stmt_bare b)
  | ETuple a sp es cs => ETuple (foreign a) sp (map bare es) cs
  | EUnary a op e0 => EUnary (foreign a) op (bare e0)
  | EUnsafe a kw sp b => EUnsafe (foreign a) kw sp (map stmt_bare b)
  | EWhile a kw c sp b => EWhile (foreign a) kw (bare c) sp (map stmt_bare b)
  | EYield a kw o => EYield (foreign a) kw (option_map bare o)
  | EVerbatim ts => EVerbatim ts
  | EHook h o _ => match h_consumed h with Some (a, sp) => ETry (foreign a) (bare o) sp | None => bare o end
  end
with stmt_bare (s : stmt) : stmt :=
  match s with
  | SLocal a pat semi => SLocal (foreign a) pat semi
  | SLocalInit a pat e ek el semi => SLocalInit (foreign a) pat (bare e) ek (option_map bare el) semi
  | SItem i => SItem (item_bare i)
  | SExpr e semi => SExpr (bare e) semi
  | SMacro a m semi => SMacro (foreign a) (mac_bare m) semi
  end
with item_bare (i : item) : item :=
  match i with
  | IFn a vis s sp b => IFn (foreign a) vis s sp (map stmt_bare b)
  | IImpl a hd sp its => IImpl (foreign a) hd sp (map impl_bare its)
  | IMod a hd sp its => IMod (foreign a) hd sp (map item_bare its)
  | IConst a hd e semi => IConst (foreign a) hd (bare e) semi
  | IStatic a hd e semi => IStatic (foreign a) hd (bare e) semi
  | ITrait a hd sp its => ITrait (foreign a) hd sp (map trait_bare its)
  | IMacro a name m semi => IMacro (foreign a) name (mac_bare m) semi
  | IOther a ts => IOther (foreign a) ts
  end
with impl_bare (i : impl_item) : impl_item :=
  match i with
  | IIFn a vis s sp b => IIFn (foreign a) vis s sp (map stmt_bare b)
  | IIConst a hd e semi => IIConst (foreign a) hd (bare e) semi
  | IIMacro a m semi => IIMacro (foreign a) (mac_bare m) semi
  | IIOther a ts => IIOther (foreign a) ts
  end
with trait_bare (i : trait_item) : trait_item :=
  match i with
  | TIConst a hd e semi => TIConst (foreign a) hd (bare e) semi
  | TIFn a s sp b => TIFn (foreign a) s sp (map stmt_bare b)
  | TIMacro a m semi => TIMacro (foreign a) (mac_bare m) semi
  | TIOther a ts => TIOther (foreign a) ts
  end
with arm_bare (r : arm) : arm :=
  match r with Arm a pat ik guard arrow body comma => Arm (foreign a) pat ik (option_map bare guard) arrow (bare body) comma end
with field_bare (f : fieldv) : fieldv :=
  match f with FieldV a m colon e => FieldV (foreign a) m colon (bare e) end
with mac_bare (m : mac) : mac :=
  match m with
  | Mac p d sp ts None => Mac p d sp ts None
  | Mac p d sp ts (Some l) => let l' := map ev_bare l in Mac p d sp (flat_map vtoks l') (Some l')
  end
with ev_bare (v : evaluable) : evaluable :=
  match v with
  | VFile fa its p => VFile (foreign fa) (map item_bare its) p
  | VItem i p => VItem (item_bare i) p
  | VExpr e p => VExpr (bare e) p
  | VStmt s p => VStmt (stmt_bare s) p
  end.
