(** Specification: what an expansion means.

    No semantics of Rust is fixed.  A meaning is any equivalence of expressions that is kept by the constructs of the language (a congruence); it may ignore hooq's attributes.  *)
From Coq Require Import String Ascii Bool Arith List.
From Verif Require Import Base Tokens Method Paths Context Flavor Attrs Syntax Walker AttrSpec SiteSpec ProgSpec WalkSpec.
Import ListNotations.
Open Scope string_scope.
Open Scope list_scope.

(** * The output as it stands: every hook is what it was rendered to *)
Fixpoint actual (e : expr) : expr :=
  match e with
  | EArray a sp es cs => EArray a sp (map actual es) cs
  | EAssign a l eq r => EAssign a (actual l) eq (actual r)
  | EAsync a kw sp b => EAsync a kw sp (map stmt_actual b)
  | EAwait a e k => EAwait a (actual e) k
  | EBinary a l op r => EBinary a (actual l) op (actual r)
  | EBlock a lbl sp b => EBlock a lbl sp (map stmt_actual b)
  | EBreak a kw e => EBreak a kw (option_map actual e)
  | ECall a f sp es cs => ECall a (actual f) sp (map actual es) cs
  | ECast a e ty => ECast a (actual e) ty
  | EClosure a hd out body => EClosure a hd out (actual body)
  | EConst a kw sp b => EConst a kw sp (map stmt_actual b)
  | EContinue a kw => EContinue a kw
  | EField a e m => EField a (actual e) m
  | EForLoop a kw e sp b => EForLoop a kw (actual e) sp (map stmt_actual b)
  | EGroup a sp e => EGroup a sp (actual e)
  | EIf a kw c sp b ek el => EIf a kw (actual c) sp (map stmt_actual b) ek (option_map actual el)
  | EIndex a e sp i => EIndex a (actual e) sp (actual i)
  | EInfer a kw => EInfer a kw
  | ELet a kw e => ELet a kw (actual e)
  | ELit a l sp => ELit a l sp
  | ELoop a kw sp b => ELoop a kw sp (map stmt_actual b)
  | EMacro a m => EMacro a (mac_actual m)
  | EMatch a kw e sp arms => EMatch a kw (actual e) sp (map arm_actual arms)
  | EMethodCall a e m sp es cs => EMethodCall a (actual e) m sp (map actual es) cs
  | EParen a sp e => EParen a sp (actual e)
  | EPath a p => EPath a p
  | ERange a s lim t => ERange a (option_map actual s) lim (option_map actual t)
  | ERawAddr a kw e => ERawAddr a kw (actual e)
  | EReference a kw e => EReference a kw (actual e)
  | ERepeat a sp e semi len => ERepeat a sp (actual e) semi (actual len)
  | EReturn a sp e => EReturn a sp (option_map actual e)
  | EStruct a p sp fs cs dots rest => EStruct a p sp (map field_actual fs) cs dots (option_map actual rest)
  | ETry a e sp => ETry a (actual e) sp
  | ETryBlock a kw sp b => ETryBlock a kw sp (map stmt_actual b)
  | ETuple a sp es cs => ETuple a sp (map actual es) cs
  | EUnary a op e => EUnary a op (actual e)
  | EUnsafe a kw sp b => EUnsafe a kw sp (map stmt_actual b)
  | EWhile a kw c sp b => EWhile a kw (actual c) sp (map stmt_actual b)
  | EYield a kw e => EYield a kw (option_map actual e)
  | EVerbatim ts => EVerbatim ts
  | EHook _ _ r => r
  end
with stmt_actual (s : stmt) : stmt :=
  match s with
  | SLocal a pat semi => SLocal a pat semi
  | SLocalInit a pat e ek el semi => SLocalInit a pat (actual e) ek (option_map actual el) semi
  | SItem i => SItem (item_actual i)
  | SExpr e semi => SExpr (actual e) semi
  | SMacro a m semi => SMacro a (mac_actual m) semi
  end
with item_actual (x : item) : item :=
  match x with
  | IFn a vis s sp b => IFn a vis s sp (map stmt_actual b)
  | IImpl a hd sp its => IImpl a hd sp (map impl_actual its)
  | IMod a hd sp its => IMod a hd sp (map item_actual its)
  | IConst a hd e semi => IConst a hd (actual e) semi
  | IStatic a hd e semi => IStatic a hd (actual e) semi
  | ITrait a hd sp its => ITrait a hd sp (map trait_actual its)
  | IMacro a name m semi => IMacro a name (mac_actual m) semi
  | IOther a ts => IOther a ts
  end
with impl_actual (x : impl_item) : impl_item :=
  match x with
  | IIFn a vis s sp b => IIFn a vis s sp (map stmt_actual b)
  | IIConst a hd e semi => IIConst a hd (actual e) semi
  | IIMacro a m semi => IIMacro a (mac_actual m) semi
  | IIOther a ts => IIOther a ts
  end
with trait_actual (x : trait_item) : trait_item :=
  match x with
  | TIConst a hd e semi => TIConst a hd (actual e) semi
  | TIFn a s sp b => TIFn a s sp (map stmt_actual b)
  | TIMacro a m semi => TIMacro a (mac_actual m) semi
  | TIOther a ts => TIOther a ts
  end
with arm_actual (x : arm) : arm :=
  match x with
  | Arm a pat ik guard arrow body comma => Arm a pat ik (option_map actual guard) arrow (actual body) comma
  end
with field_actual (x : fieldv) : fieldv :=
  match x with
  | FieldV a member colon e => FieldV a member colon (actual e)
  end
with mac_actual (x : mac) : mac :=
  match x with
  | Mac p d sp ts view => Mac p d sp ts (option_map (map ev_actual) view)
  end
with ev_actual (x : evaluable) : evaluable :=
  match x with
  | VFile fa its p => VFile fa (map item_actual its) p
  | VItem i p => VItem (item_actual i) p
  | VExpr e p => VExpr (actual e) p
  | VStmt s p => VStmt (stmt_actual s) p
  end.

(** * One construct: its shape (without its expressions, hooq's attributes and the text of macro arguments that were read) and its expressions *)
Definition hole : expr := EVerbatim [].
Definition one (e : expr) : list expr := [e].
Fixpoint stmt_shape (s : stmt) : stmt :=
  match s with
  | SLocal a pat semi => SLocal (foreign a) pat semi
  | SLocalInit a pat _ ek el semi => SLocalInit (foreign a) pat hole ek (option_map (fun _ => hole) el) semi
  | SItem i => SItem (item_shape i)
  | SExpr _ semi => SExpr hole semi
  | SMacro a m semi => SMacro (foreign a) (mac_shape m) semi
  end
with item_shape (x : item) : item :=
  match x with
  | IFn a vis s sp b => IFn (foreign a) vis s sp (map stmt_shape b)
  | IImpl a hd sp its => IImpl (foreign a) hd sp (map impl_shape its)
  | IMod a hd sp its => IMod (foreign a) hd sp (map item_shape its)
  | IConst a hd _ semi => IConst (foreign a) hd hole semi
  | IStatic a hd _ semi => IStatic (foreign a) hd hole semi
  | ITrait a hd sp its => ITrait (foreign a) hd sp (map trait_shape its)
  | IMacro a name m semi => IMacro (foreign a) name (mac_shape m) semi
  | IOther a ts => IOther (foreign a) ts
  end
with impl_shape (x : impl_item) : impl_item :=
  match x with
  | IIFn a vis s sp b => IIFn (foreign a) vis s sp (map stmt_shape b)
  | IIConst a hd _ semi => IIConst (foreign a) hd hole semi
  | IIMacro a m semi => IIMacro (foreign a) (mac_shape m) semi
  | IIOther a ts => IIOther (foreign a) ts
  end
with trait_shape (x : trait_item) : trait_item :=
  match x with
  | TIConst a hd _ semi => TIConst (foreign a) hd hole semi
  | TIFn a s sp b => TIFn (foreign a) s sp (map stmt_shape b)
  | TIMacro a m semi => TIMacro (foreign a) (mac_shape m) semi
  | TIOther a ts => TIOther (foreign a) ts
  end
with mac_shape (x : mac) : mac :=
  match x with
  | Mac p d sp ts None => Mac p d sp ts None
  | Mac p d sp _ (Some l) => Mac p d sp [] (Some (map ev_shape l))
  end
with ev_shape (x : evaluable) : evaluable :=
  match x with
  | VFile fa its p => VFile (foreign fa) (map item_shape its) p
  | VItem i p => VItem (item_shape i) p
  | VExpr _ p => VExpr hole p
  | VStmt s p => VStmt (stmt_shape s) p
  end.
Definition arm_shape (x : arm) : arm :=
  match x with
  | Arm a pat ik guard arrow _ comma => Arm (foreign a) pat ik (option_map (fun _ => hole) guard) arrow hole comma
  end.
Definition field_shape (x : fieldv) : fieldv :=
  match x with
  | FieldV a member colon _ => FieldV (foreign a) member colon hole
  end.
Definition shape (e : expr) : expr :=
  match e with
  | EArray a sp es cs => EArray (foreign a) sp (map (fun _ => hole) es) cs
  | EAssign a _ eq _ => EAssign (foreign a) hole eq hole
  | EAsync a kw sp b => EAsync (foreign a) kw sp (map stmt_shape b)
  | EAwait a _ k => EAwait (foreign a) hole k
  | EBinary a _ op _ => EBinary (foreign a) hole op hole
  | EBlock a lbl sp b => EBlock (foreign a) lbl sp (map stmt_shape b)
  | EBreak a kw e => EBreak (foreign a) kw (option_map (fun _ => hole) e)
  | ECall a _ sp es cs => ECall (foreign a) hole sp (map (fun _ => hole) es) cs
  | ECast a _ ty => ECast (foreign a) hole ty
  | EClosure a hd out _ => EClosure (foreign a) hd out hole
  | EConst a kw sp b => EConst (foreign a) kw sp (map stmt_shape b)
  | EContinue a kw => EContinue (foreign a) kw
  | EField a _ m => EField (foreign a) hole m
  | EForLoop a kw _ sp b => EForLoop (foreign a) kw hole sp (map stmt_shape b)
  | EGroup a sp _ => EGroup (foreign a) sp hole
  | EIf a kw _ sp b ek el => EIf (foreign a) kw hole sp (map stmt_shape b) ek (option_map (fun _ => hole) el)
  | EIndex a _ sp _ => EIndex (foreign a) hole sp hole
  | EInfer a kw => EInfer (foreign a) kw
  | ELet a kw _ => ELet (foreign a) kw hole
  | ELit a l sp => ELit (foreign a) l sp
  | ELoop a kw sp b => ELoop (foreign a) kw sp (map stmt_shape b)
  | EMacro a m => EMacro (foreign a) (mac_shape m)
  | EMatch a kw _ sp arms => EMatch (foreign a) kw hole sp (map arm_shape arms)
  | EMethodCall a _ m sp es cs => EMethodCall (foreign a) hole m sp (map (fun _ => hole) es) cs
  | EParen a sp _ => EParen (foreign a) sp hole
  | EPath a p => EPath (foreign a) p
  | ERange a s lim t => ERange (foreign a) (option_map (fun _ => hole) s) lim (option_map (fun _ => hole) t)
  | ERawAddr a kw _ => ERawAddr (foreign a) kw hole
  | EReference a kw _ => EReference (foreign a) kw hole
  | ERepeat a sp _ semi _ => ERepeat (foreign a) sp hole semi hole
  | EReturn a sp e => EReturn (foreign a) sp (option_map (fun _ => hole) e)
  | EStruct a p sp fs cs dots rest => EStruct (foreign a) p sp (map field_shape fs) cs dots (option_map (fun _ => hole) rest)
  | ETry a _ sp => ETry (foreign a) hole sp
  | ETryBlock a kw sp b => ETryBlock (foreign a) kw sp (map stmt_shape b)
  | ETuple a sp es cs => ETuple (foreign a) sp (map (fun _ => hole) es) cs
  | EUnary a op _ => EUnary (foreign a) op hole
  | EUnsafe a kw sp b => EUnsafe (foreign a) kw sp (map stmt_shape b)
  | EWhile a kw _ sp b => EWhile (foreign a) kw hole sp (map stmt_shape b)
  | EYield a kw e => EYield (foreign a) kw (option_map (fun _ => hole) e)
  | EVerbatim ts => EVerbatim ts
  | EHook h o r => EHook h o r
  end.
Fixpoint stmt_parts (s : stmt) : list expr :=
  match s with
  | SLocal _ _ _ => []
  | SLocalInit _ _ e _ el _ => [e] ++ opt_list one el
  | SItem i => item_parts i
  | SExpr e _ => [e]
  | SMacro _ m _ => mac_parts m
  end
with item_parts (x : item) : list expr :=
  match x with
  | IFn _ _ _ _ b => flat_map stmt_parts b
  | IImpl _ _ _ its => flat_map impl_parts its
  | IMod _ _ _ its => flat_map item_parts its
  | IConst _ _ e _ | IStatic _ _ e _ => [e]
  | ITrait _ _ _ its => flat_map trait_parts its
  | IMacro _ _ m _ => mac_parts m
  | IOther _ _ => []
  end
with impl_parts (x : impl_item) : list expr :=
  match x with
  | IIFn _ _ _ _ b => flat_map stmt_parts b
  | IIConst _ _ e _ => [e]
  | IIMacro _ m _ => mac_parts m
  | IIOther _ _ => []
  end
with trait_parts (x : trait_item) : list expr :=
  match x with
  | TIConst _ _ e _ => [e]
  | TIFn _ _ _ b => flat_map stmt_parts b
  | TIMacro _ m _ => mac_parts m
  | TIOther _ _ => []
  end
with mac_parts (x : mac) : list expr :=
  match x with
  | Mac _ _ _ _ None => []
  | Mac _ _ _ _ (Some l) => flat_map ev_parts l
  end
with ev_parts (x : evaluable) : list expr :=
  match x with
  | VFile _ its _ => flat_map item_parts its
  | VItem i _ => item_parts i
  | VExpr e _ => [e]
  | VStmt s _ => stmt_parts s
  end.
Definition arm_parts (x : arm) : list expr :=
  match x with
  | Arm _ _ _ guard _ body _ => opt_list one guard ++ [body]
  end.
Definition field_parts (x : fieldv) : list expr :=
  match x with
  | FieldV _ _ _ e => [e]
  end.
Definition parts (e : expr) : list expr :=
  match e with
  | EArray _ _ es _ | ETuple _ _ es _ => es
  | EAssign _ l _ r | EBinary _ l _ r => [l] ++ [r]
  | EAsync _ _ _ b | EBlock _ _ _ b | EConst _ _ _ b | ELoop _ _ _ b | ETryBlock _ _ _ b | EUnsafe _ _ _ b => flat_map stmt_parts b
  | EAwait _ e _ | ECast _ e _ | EField _ e _ | EGroup _ _ e | ELet _ _ e | EParen _ _ e | ERawAddr _ _ e | EReference _ _ e | ETry _ e _ | EUnary _ _ e => [e]
  | EBreak _ _ e | EReturn _ _ e | EYield _ _ e => opt_list one e
  | ECall _ f _ es _ => [f] ++ es
  | EClosure _ _ _ body => [body]
  | EContinue _ _ | EInfer _ _ | ELit _ _ _ | EPath _ _ | EVerbatim _ | EHook _ _ _ => []
  | EForLoop _ _ e _ b => [e] ++ flat_map stmt_parts b
  | EIf _ _ c _ b _ el => [c] ++ flat_map stmt_parts b ++ opt_list one el
  | EIndex _ e _ i => [e] ++ [i]
  | EMacro _ m => mac_parts m
  | EMatch _ _ e _ arms => [e] ++ flat_map arm_parts arms
  | EMethodCall _ e _ _ es _ => [e] ++ es
  | ERange _ s _ t => opt_list one s ++ opt_list one t
  | ERepeat _ _ e _ len => [e] ++ [len]
  | EStruct _ _ _ fs _ _ rest => flat_map field_parts fs ++ opt_list one rest
  | EWhile _ _ c _ b => [c] ++ flat_map stmt_parts b
  end.
(** the macros whose arguments are read as Rust *)
Fixpoint stmt_opened (s : stmt) : list path :=
  match s with
  | SLocal _ _ _ | SLocalInit _ _ _ _ _ _ | SExpr _ _ => []
  | SItem i => item_opened i
  | SMacro _ m _ => mac_opened m
  end
with item_opened (x : item) : list path :=
  match x with
  | IFn _ _ _ _ b => flat_map stmt_opened b
  | IImpl _ _ _ its => flat_map impl_opened its
  | IMod _ _ _ its => flat_map item_opened its
  | IConst _ _ _ _ | IStatic _ _ _ _ | IOther _ _ => []
  | ITrait _ _ _ its => flat_map trait_opened its
  | IMacro _ _ m _ => mac_opened m
  end
with impl_opened (x : impl_item) : list path :=
  match x with
  | IIFn _ _ _ _ b => flat_map stmt_opened b
  | IIConst _ _ _ _ | IIOther _ _ => []
  | IIMacro _ m _ => mac_opened m
  end
with trait_opened (x : trait_item) : list path :=
  match x with
  | TIConst _ _ _ _ | TIOther _ _ => []
  | TIFn _ _ _ b => flat_map stmt_opened b
  | TIMacro _ m _ => mac_opened m
  end
with mac_opened (x : mac) : list path :=
  match x with
  | Mac _ _ _ _ None => []
  | Mac p _ _ _ (Some l) => p :: flat_map ev_opened l
  end
with ev_opened (x : evaluable) : list path :=
  match x with
  | VFile _ its _ => flat_map item_opened its
  | VItem i _ => item_opened i
  | VExpr _ _ => []
  | VStmt s _ => stmt_opened s
  end.
Definition opened (e : expr) : list path :=
  match e with
  | EArray _ _ _ _ | EAssign _ _ _ _ | EAwait _ _ _ | EBinary _ _ _ _ | EBreak _ _ _ | ECall _ _ _ _ _ | ECast _ _ _ | EClosure _ _ _ _ | EContinue _ _
  | EField _ _ _ | EGroup _ _ _ | EIndex _ _ _ _ | EInfer _ _ | ELet _ _ _ | ELit _ _ _ | EMatch _ _ _ _ _ | EMethodCall _ _ _ _ _ _ | EParen _ _ _
  | EPath _ _ | ERange _ _ _ _ | ERawAddr _ _ _ | EReference _ _ _ | ERepeat _ _ _ _ _ | EReturn _ _ _ | EStruct _ _ _ _ _ _ _ | ETry _ _ _
  | ETuple _ _ _ _ | EUnary _ _ _ | EYield _ _ _ | EVerbatim _ | EHook _ _ _ => []
  | EAsync _ _ _ b | EBlock _ _ _ b | EConst _ _ _ b | EForLoop _ _ _ _ b | EIf _ _ _ _ b _ _ | ELoop _ _ _ b | ETryBlock _ _ _ b | EUnsafe _ _ _ b
  | EWhile _ _ _ _ b => flat_map stmt_opened b
  | EMacro _ m => mac_opened m
  end.

(** * Meanings *)
(** [R]: two expressions mean the same.  [P]: the macros that see the meaning of their arguments only ([stringify!] is none).  *)
Record congruence (P : path -> Prop) (R : expr -> expr -> Prop) : Prop := mk_congruence {
  cg_sym : forall x y, R x y -> R y x;
  cg_trans : forall x y z, R x y -> R y z -> R x z;
  cg_node : forall x y, shape x = shape y -> Forall P (opened x) -> Forall2 R (parts x) (parts y) -> R x y }.
(** two items mean the same: they differ in expressions that mean the same *)
Definition item_alike (R : expr -> expr -> Prop) (it it' : item) : Prop := item_shape it = item_shape it' /\ Forall2 R (item_parts it) (item_parts it').
(** the program opens no other macros *)
Definition opens_only (P : path -> Prop) (it : item) : Prop := Forall P (item_opened it) /\ forall e, In e (item_subs it) -> Forall P (opened e).
(** what a hook replaced: its target, with the [?] that it consumed *)
Definition replaced (h : hook) (o : expr) : expr := match h_consumed h with Some (a, sp) => ETry a (actual o) sp | None => actual o end.
(** the hooks of an expansion only observe: the text that replaces a target means what the target means *)
Definition observing (R : expr -> expr -> Prop) (out : item) : Prop := forall h o r, In (EHook h o r) (item_subs out) -> R (replaced h o) r.
