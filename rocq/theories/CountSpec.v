(** Specification of what does not depend on the counters.  *)
From Coq Require Import String Ascii Bool Arith List.
From Verif Require Import Base Tokens Method Paths Context Flavor Attrs Syntax RenderSpec AttrSpec SiteSpec ProgSpec SettingSpec.
Import ListNotations.
Open Scope string_scope.
Open Scope list_scope.

(** the methods in effect mention no number: neither [$count] nor [$hooq_meta] *)
Definition countless (f : fcore) (tr : list step) : Prop :=
  forall m n, In m (all_methods f tr) -> uses n (m_template m) -> ~ In n ["count"; "nth"; "hooq_meta"; "hooqmeta"].

(** ... at a position, if it is reached and not skipped *)
Definition countless_at (env : attr_env) (f : fcore) (s : site) : Prop :=
  forall tr, trail env (s_frames s) tr -> reached f tr = true -> skipped tr = false -> countless f tr.

(** * A program without the numbers recorded in its hooks; its tokens are the same *)
Definition without_count (h : hook) : hook := mk_hook (h_kind h) 0 (h_span h) (h_source h) (h_ctx h) (h_consumed h).
Fixpoint forget (e : expr) : expr :=
  match e with
  | EArray a sp es cs => EArray a sp (map forget es) cs
  | EAssign a l q r => EAssign a (forget l) q (forget r)
  | EAsync a kw sp b => EAsync a kw sp (map stmt_forget b)
  | EAwait a e0 k => EAwait a (forget e0) k
  | EBinary a l o r => EBinary a (forget l) o (forget r)
  | EBlock a lbl sp b => EBlock a lbl sp (map stmt_forget b)
  | EBreak a kw o => EBreak a kw (option_map forget o)
  | ECall a f sp es cs => ECall a (forget f) sp (map forget es) cs
  | ECast a e0 ty => ECast a (forget e0) ty
  | EClosure a hd out body => EClosure a hd out (forget body)
  | EConst a kw sp b => EConst a kw sp (map stmt_forget b)
  | EContinue a kw => EContinue a kw
  | EField a e0 m => EField a (forget e0) m
  | EForLoop a kw e0 sp b => EForLoop a kw (forget e0) sp (map stmt_forget b)
  | EGroup a sp e0 => EGroup a sp (forget e0)
  | EIf a kw c sp b ek el => EIf a kw (forget c) sp (map stmt_forget b) ek (option_map forget el)
  | EIndex a e0 sp i => EIndex a (forget e0) sp (forget i)
  | EInfer a kw => EInfer a kw
  | ELet a kw e0 => ELet a kw (forget e0)
  | ELit a l sp => ELit a l sp
  | ELoop a kw sp b => ELoop a kw sp (map stmt_forget b)
  | EMacro a m => EMacro a (mac_forget m)
  | EMatch a kw e0 sp arms => EMatch a kw (forget e0) sp (map arm_forget arms)
  | EMethodCall a e0 m sp es cs => EMethodCall a (forget e0) m sp (map forget es) cs
  | EParen a sp e0 => EParen a sp (forget e0)
  | EPath a p => EPath a p
  | ERange a s lim t => ERange a (option_map forget s) lim (option_map forget t)
  | ERawAddr a kw e0 => ERawAddr a kw (forget e0)
  | EReference a kw e0 => EReference a kw (forget e0)
  | ERepeat a sp e0 semi len => ERepeat a sp (forget e0) semi (forget len)
  | EReturn a sp o => EReturn a sp (option_map forget o)
  | EStruct a p sp fs cs dots rest => EStruct a p sp (map field_forget fs) cs dots (option_map forget rest)
  | ETry a e0 sp => ETry a (forget e0) sp
  | ETryBlock a kw sp b => ETryBlock a kw sp (map stmt_forget b)
  | ETuple a sp es cs => ETuple a sp (map forget es) cs
  | EUnary a op e0 => EUnary a op (forget e0)
  | EUnsafe a kw sp b => EUnsafe a kw sp (map stmt_forget b)
  | EWhile a kw c sp b => EWhile a kw (forget c) sp (map stmt_forget b)
  | EYield a kw o => EYield a kw (option_map forget o)
  | EVerbatim ts => EVerbatim ts
  | EHook h o r => EHook (without_count h) (forget o) r
  end
with stmt_forget (s : stmt) : stmt :=
  match s with
  | SLocal a pat semi => SLocal a pat semi
  | SLocalInit a pat e ek el semi => SLocalInit a pat (forget e) ek (option_map forget el) semi
  | SItem i => SItem (item_forget i)
  | SExpr e semi => SExpr (forget e) semi
  | Syntax.SMacro a m semi => Syntax.SMacro a (mac_forget m) semi
  end
with item_forget (i : item) : item :=
  match i with
  | IFn a vis s sp b => IFn a vis s sp (map stmt_forget b)
  | IImpl a hd sp its => IImpl a hd sp (map impl_forget its)
  | IMod a hd sp its => IMod a hd sp (map item_forget its)
  | IConst a hd e semi => IConst a hd (forget e) semi
  | IStatic a hd e semi => IStatic a hd (forget e) semi
  | ITrait a hd sp its => ITrait a hd sp (map trait_forget its)
  | IMacro a name m semi => IMacro a name (mac_forget m) semi
  | IOther a ts => IOther a ts
  end
with impl_forget (i : impl_item) : impl_item :=
  match i with
  | IIFn a vis s sp b => IIFn a vis s sp (map stmt_forget b)
  | IIConst a hd e semi => IIConst a hd (forget e) semi
  | IIMacro a m semi => IIMacro a (mac_forget m) semi
  | IIOther a ts => IIOther a ts
  end
with trait_forget (i : trait_item) : trait_item :=
  match i with
  | TIConst a hd e semi => TIConst a hd (forget e) semi
  | TIFn a s sp b => TIFn a s sp (map stmt_forget b)
  | TIMacro a m semi => TIMacro a (mac_forget m) semi
  | TIOther a ts => TIOther a ts
  end
with arm_forget (r : arm) : arm :=
  match r with Arm a pat ik guard arrow body comma => Arm a pat ik (option_map forget guard) arrow (forget body) comma end
with field_forget (f : fieldv) : fieldv :=
  match f with FieldV a m colon e => FieldV a m colon (forget e) end
with mac_forget (m : mac) : mac :=
  match m with
  | Mac p d sp ts None => Mac p d sp ts None
  | Mac p d sp ts (Some l) => Mac p d sp ts (Some (map ev_forget l))
  end
with ev_forget (v : evaluable) : evaluable :=
  match v with
  | VFile fa its p => VFile fa (map item_forget its) p
  | VItem i p => VItem (item_forget i) p
  | VExpr e p => VExpr (forget e) p
  | VStmt s p => VStmt (stmt_forget s) p
  end.

(** * Parts of a program *)
Inductive part : Type := AnItem (i : item) | AnImpl (i : impl_item) | ATrait (i : trait_item).
Definition part_toks (p : part) : list tt := match p with AnItem i => itoks i | AnImpl i => iitoks i | ATrait i => titoks i end.
Definition part_sites (fr : list frame) (p : part) : list site :=
  match p with AnItem i => item_sites fr i | AnImpl i => impl_sites fr i | ATrait i => trait_sites fr i end.
(** [inside it out fr p p']: [p] is [it], or stands in modules, impl blocks and traits of [it], whose attributes are [fr];
    [p'] stands at the same place of [out] *)
Inductive inside (it out : item) : list frame -> part -> part -> Prop :=
| in_here : inside it out [] (AnItem it) (AnItem out)
| in_mod : forall fr a hd sp l a' hd' sp' l' n x x', inside it out fr (AnItem (IMod a hd sp l)) (AnItem (IMod a' hd' sp' l')) ->
    nth_error l n = Some x -> nth_error l' n = Some x' -> inside it out (FAttrs a :: fr) (AnItem x) (AnItem x')
| in_impl : forall fr a hd sp l a' hd' sp' l' n x x', inside it out fr (AnItem (IImpl a hd sp l)) (AnItem (IImpl a' hd' sp' l')) ->
    nth_error l n = Some x -> nth_error l' n = Some x' -> inside it out (FAttrs a :: fr) (AnImpl x) (AnImpl x')
| in_trait : forall fr a hd sp l a' hd' sp' l' n x x', inside it out fr (AnItem (ITrait a hd sp l)) (AnItem (ITrait a' hd' sp' l')) ->
    nth_error l n = Some x -> nth_error l' n = Some x' -> inside it out (FAttrs a :: fr) (ATrait x) (ATrait x').
