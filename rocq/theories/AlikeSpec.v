(** Specification of what is the same up to the numbers of the hooks.  *)
From Coq Require Import String Ascii Bool Arith List.
From Verif Require Import Base Tokens Method Paths Context Flavor Attrs Syntax Walker RenderSpec AttrSpec SiteSpec ProgSpec SettingSpec CountSpec.
Import ListNotations.
Open Scope string_scope.
Open Scope list_scope.

(** the text of a count: the ordinal of a number and the name of a kind *)
Definition numbered (k : kind) (s : string) : Prop :=
  exists n ds suf, s = (ds ++ suf ++ " " ++ kind_word k)%string /\ decimal n ds /\ english ds suf.
(** the same token, except that a string literal with a count may have another count of the same kind *)
Inductive alike : tt -> tt -> Prop :=
| al_ident : forall s sp, alike (TIdent s sp) (TIdent s sp)
| al_punct : forall c sp, alike (TPunct c sp) (TPunct c sp)
| al_lit : forall l sp, alike (TLit l sp) (TLit l sp)
| al_count : forall k s s' sp, numbered k s -> numbered k s' -> alike (TLit (LStr s) sp) (TLit (LStr s') sp)
| al_group : forall d ts ts' sp, Forall2 alike ts ts' -> alike (TGroup d ts sp) (TGroup d ts' sp).

(** what an expression is: a path, the call of a path, or anything else *)
Inductive shape : Type := ShPath (p : path) | ShCall (p : path) | ShOther.
Definition shape_of (e : expr) : shape :=
  match seen e with
  | EPath _ p => ShPath p
  | ECall _ f _ _ _ => match seen f with EPath _ p => ShCall p | _ => ShOther end
  | _ => ShOther
  end.
(** [parse_quote!] does not look into string literals: it fails for both of two texts that are alike, or reads both alike *)
Definition reads_alike (E : env) : Prop :=
  forall ts ts', Forall2 alike ts ts' ->
    match ev_parse E ts, ev_parse E ts' with
    | Some r, Some r' => Forall2 alike (etoks r) (etoks r') /\ shape_of r = shape_of r'
    | None, None => True
    | _, _ => False
    end.

(** * The outline of a program: the hooks that were applied, where, how and on what, without their number and without the text they produced *)
Fixpoint outline (e : expr) : expr :=
  match e with
  | EArray a sp es cs => EArray a sp (map outline es) cs
  | EAssign a l q r => EAssign a (outline l) q (outline r)
  | EAsync a kw sp b => EAsync a kw sp (map stmt_outline b)
  | EAwait a e0 k => EAwait a (outline e0) k
  | EBinary a l o r => EBinary a (outline l) o (outline r)
  | EBlock a lbl sp b => EBlock a lbl sp (map stmt_outline b)
  | EBreak a kw o => EBreak a kw (option_map outline o)
  | ECall a f sp es cs => ECall a (outline f) sp (map outline es) cs
  | ECast a e0 ty => ECast a (outline e0) ty
  | EClosure a hd out body => EClosure a hd out (outline body)
  | EConst a kw sp b => EConst a kw sp (map stmt_outline b)
  | EContinue a kw => EContinue a kw
  | EField a e0 m => EField a (outline e0) m
  | EForLoop a kw e0 sp b => EForLoop a kw (outline e0) sp (map stmt_outline b)
  | EGroup a sp e0 => EGroup a sp (outline e0)
  | EIf a kw c sp b ek el => EIf a kw (outline c) sp (map stmt_outline b) ek (option_map outline el)
  | EIndex a e0 sp i => EIndex a (outline e0) sp (outline i)
  | EInfer a kw => EInfer a kw
  | ELet a kw e0 => ELet a kw (outline e0)
  | ELit a l sp => ELit a l sp
  | ELoop a kw sp b => ELoop a kw sp (map stmt_outline b)
  | EMacro a m => EMacro a (mac_outline m)
  | EMatch a kw e0 sp arms => EMatch a kw (outline e0) sp (map arm_outline arms)
  | EMethodCall a e0 m sp es cs => EMethodCall a (outline e0) m sp (map outline es) cs
  | EParen a sp e0 => EParen a sp (outline e0)
  | EPath a p => EPath a p
  | ERange a s lim t => ERange a (option_map outline s) lim (option_map outline t)
  | ERawAddr a kw e0 => ERawAddr a kw (outline e0)
  | EReference a kw e0 => EReference a kw (outline e0)
  | ERepeat a sp e0 semi len => ERepeat a sp (outline e0) semi (outline len)
  | EReturn a sp o => EReturn a sp (option_map outline o)
  | EStruct a p sp fs cs dots rest => EStruct a p sp (map field_outline fs) cs dots (option_map outline rest)
  | ETry a e0 sp => ETry a (outline e0) sp
  | ETryBlock a kw sp b => ETryBlock a kw sp (map stmt_outline b)
  | ETuple a sp es cs => ETuple a sp (map outline es) cs
  | EUnary a op e0 => EUnary a op (outline e0)
  | EUnsafe a kw sp b => EUnsafe a kw sp (map stmt_outline b)
  | EWhile a kw c sp b => EWhile a kw (outline c) sp (map stmt_outline b)
  | EYield a kw o => EYield a kw (option_map outline o)
  | EVerbatim ts => EVerbatim ts
  | EHook h o r => EHook (without_count h) (outline o) (EVerbatim [])
  end
with stmt_outline (s : stmt) : stmt :=
  match s with
  | SLocal a pat semi => SLocal a pat semi
  | SLocalInit a pat e ek el semi => SLocalInit a pat (outline e) ek (option_map outline el) semi
  | SItem i => SItem (item_outline i)
  | SExpr e semi => SExpr (outline e) semi
  | Syntax.SMacro a m semi => Syntax.SMacro a (mac_outline m) semi
  end
with item_outline (i : item) : item :=
  match i with
  | IFn a vis s sp b => IFn a vis s sp (map stmt_outline b)
  | IImpl a hd sp its => IImpl a hd sp (map impl_outline its)
  | IMod a hd sp its => IMod a hd sp (map item_outline its)
  | IConst a hd e semi => IConst a hd (outline e) semi
  | IStatic a hd e semi => IStatic a hd (outline e) semi
  | ITrait a hd sp its => ITrait a hd sp (map trait_outline its)
  | IMacro a name m semi => IMacro a name (mac_outline m) semi
  | IOther a ts => IOther a ts
  end
with impl_outline (i : impl_item) : impl_item :=
  match i with
  | IIFn a vis s sp b => IIFn a vis s sp (map stmt_outline b)
  | IIConst a hd e semi => IIConst a hd (outline e) semi
  | IIMacro a m semi => IIMacro a (mac_outline m) semi
  | IIOther a ts => IIOther a ts
  end
with trait_outline (i : trait_item) : trait_item :=
  match i with
  | TIConst a hd e semi => TIConst a hd (outline e) semi
  | TIFn a s sp b => TIFn a s sp (map stmt_outline b)
  | TIMacro a m semi => TIMacro a (mac_outline m) semi
  | TIOther a ts => TIOther a ts
  end
with arm_outline (r : arm) : arm :=
  match r with Arm a pat ik guard arrow body comma => Arm a pat ik (option_map outline guard) arrow (outline body) comma end
with field_outline (f : fieldv) : fieldv :=
  match f with FieldV a m colon e => FieldV a m colon (outline e) end
with mac_outline (m : mac) : mac :=
  match m with
  | Mac p d sp ts None => Mac p d sp ts None
  | Mac p d sp ts (Some l) => Mac p d sp [] (Some (map ev_outline l))
  end
with ev_outline (v : evaluable) : evaluable :=
  match v with
  | VFile fa its p => VFile fa (map item_outline its) p
  | VItem i p => VItem (item_outline i) p
  | VExpr e p => VExpr (outline e) p
  | VStmt s p => VStmt (stmt_outline s) p
  end.


Definition part_outline (p : part) : part :=
  match p with AnItem i => AnItem (item_outline i) | AnImpl i => AnImpl (impl_outline i) | ATrait i => ATrait (trait_outline i) end.
