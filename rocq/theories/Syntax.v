(** Expressions, statements and items of [syn], and their printing.  *)
From Coq Require Import String Ascii Bool Arith List.
From Verif Require Import Base Tokens Method Paths Context.
Import ListNotations.
Open Scope string_scope.
Open Scope list_scope.

(** What is known of a hook that was applied (ghost data, not part of the code: see [EHook]). *)
Record hook : Type := mk_hook {
  h_kind : kind;
  h_count : nat;                               (* value of the counter of that kind *)
  h_span : span;                               (* q_span *)
  h_source : list tt;                          (* source_tokenstream *)
  h_ctx : ctx;                                 (* the context it was rendered in *)
  h_consumed : option (list attr * span)       (* the [?] removed by the method's [!]: its attributes and span *) }.

(** One constructor per variant of [syn::Expr].  The first argument is the attribute list.  Parts the walker
    never looks into (patterns, types, labels, operators, keywords, member names) are kept as tokens; commas of
    [Punctuated] are kept as a token list [cs].  [EHook h orig res]: the walker replaced [orig] by [res], the
    parse of the rendered tokens; everything that inspects or prints an expression looks at [res]. *)
Inductive expr : Type :=
| EArray (a : list attr) (sp : span) (es : list expr) (cs : list tt)
| EAssign (a : list attr) (l : expr) (eq : list tt) (r : expr)
| EAsync (a : list attr) (kw : list tt) (sp : span) (b : list stmt)
| EAwait (a : list attr) (e : expr) (k : list tt)
| EBinary (a : list attr) (l : expr) (op : list tt) (r : expr)
| EBlock (a : list attr) (lbl : list tt) (sp : span) (b : list stmt)
| EBreak (a : list attr) (kw : list tt) (e : option expr)
| ECall (a : list attr) (f : expr) (sp : span) (es : list expr) (cs : list tt)
| ECast (a : list attr) (e : expr) (ty : list tt)
| EClosure (a : list attr) (hd : list tt) (out : ret_ty) (body : expr)
| EConst (a : list attr) (kw : list tt) (sp : span) (b : list stmt)
| EContinue (a : list attr) (kw : list tt)
| EField (a : list attr) (e : expr) (m : list tt)
| EForLoop (a : list attr) (kw : list tt) (e : expr) (sp : span) (b : list stmt)
| EGroup (a : list attr) (sp : span) (e : expr)
| EIf (a : list attr) (kw : list tt) (c : expr) (sp : span) (b : list stmt) (ek : list tt) (el : option expr)
| EIndex (a : list attr) (e : expr) (sp : span) (i : expr)
| EInfer (a : list attr) (kw : list tt)
| ELet (a : list attr) (kw : list tt) (e : expr)
| ELit (a : list attr) (l : lit) (sp : span)
| ELoop (a : list attr) (kw : list tt) (sp : span) (b : list stmt)
| EMacro (a : list attr) (m : mac)
| EMatch (a : list attr) (kw : list tt) (e : expr) (sp : span) (arms : list arm)
| EMethodCall (a : list attr) (e : expr) (m : list tt) (sp : span) (es : list expr) (cs : list tt)
| EParen (a : list attr) (sp : span) (e : expr)
| EPath (a : list attr) (p : path)
| ERange (a : list attr) (s : option expr) (lim : list tt) (t : option expr)
| ERawAddr (a : list attr) (kw : list tt) (e : expr)
| EReference (a : list attr) (kw : list tt) (e : expr)
| ERepeat (a : list attr) (sp : span) (e : expr) (semi : list tt) (len : expr)
| EReturn (a : list attr) (sp : span) (e : option expr)
| EStruct (a : list attr) (p : path) (sp : span) (fs : list fieldv) (cs : list tt) (dots : list tt) (rest : option expr)
| ETry (a : list attr) (e : expr) (sp : span)
| ETryBlock (a : list attr) (kw : list tt) (sp : span) (b : list stmt)
| ETuple (a : list attr) (sp : span) (es : list expr) (cs : list tt)
| EUnary (a : list attr) (op : list tt) (e : expr)
| EUnsafe (a : list attr) (kw : list tt) (sp : span) (b : list stmt)
| EWhile (a : list attr) (kw : list tt) (c : expr) (sp : span) (b : list stmt)
| EYield (a : list attr) (kw : list tt) (e : option expr)
| EVerbatim (ts : list tt)
| EHook (h : hook) (orig res : expr)
(** [syn::Stmt]; [SLocal] has no initialiser *)
with stmt : Type :=
| SLocal (a : list attr) (pat : list tt) (semi : list tt)
| SLocalInit (a : list attr) (pat : list tt) (e : expr) (ek : list tt) (el : option expr) (semi : list tt)
| SItem (i : item)
| SExpr (e : expr) (semi : option span)
| SMacro (a : list attr) (m : mac) (semi : list tt)
(** [syn::Item]; [IOther] is every variant of walker/mod.rs 382-392 *)
with item : Type :=
| IFn (a : list attr) (vis : list tt) (s : sig) (sp : span) (b : list stmt)
| IImpl (a : list attr) (hd : list tt) (sp : span) (its : list impl_item)
| IMod (a : list attr) (hd : list tt) (sp : span) (its : list item)
| IConst (a : list attr) (hd : list tt) (e : expr) (semi : list tt)
| IStatic (a : list attr) (hd : list tt) (e : expr) (semi : list tt)
| ITrait (a : list attr) (hd : list tt) (sp : span) (its : list trait_item)
| IMacro (a : list attr) (name : option string) (m : mac) (semi : list tt)
| IOther (a : list attr) (ts : list tt)
with impl_item : Type :=
| IIFn (a : list attr) (vis : list tt) (s : sig) (sp : span) (b : list stmt)
| IIConst (a : list attr) (hd : list tt) (e : expr) (semi : list tt)
| IIMacro (a : list attr) (m : mac) (semi : list tt)
| IIOther (a : list attr) (ts : list tt)
with trait_item : Type :=
| TIConst (a : list attr) (hd : list tt) (e : expr) (semi : list tt)
| TIFn (a : list attr) (s : sig) (sp : span) (b : list stmt)
| TIMacro (a : list attr) (m : mac) (semi : list tt)
| TIOther (a : list attr) (ts : list tt)
(** [syn::Arm], [syn::FieldValue] ([colon = []]: shorthand) *)
with arm : Type :=
| Arm (a : list attr) (pat : list tt) (ik : list tt) (guard : option expr) (arrow : list tt) (body : expr) (comma : list tt)
with fieldv : Type :=
| FieldV (a : list attr) (member : list tt) (colon : list tt) (e : expr)
(** [syn::Macro].  [ts] are the argument tokens.  [view] is what [syn::parse2::<EvaluableList>] makes of them
    (walk_macro.rs 41): [None] when it fails.  The loop that produces it is modelled in EvalList.v. *)
with mac : Type :=
| Mac (p : path) (d : delim) (sp : span) (ts : list tt) (view : option (list evaluable))
(** walk_macro.rs 88-94 with the punctuation that followed (137-138) *)
with evaluable : Type :=
| VFile (fa : list attr) (its : list item) (p : list tt)
| VItem (i : item) (p : list tt)
| VExpr (e : expr) (p : list tt)
| VStmt (s : stmt) (p : list tt).

(** * Attributes of an expression *)

(** utils/get_attrs.rs 9-52 (and the setter through the same [&mut]) *)
Definition get_attrs (e : expr) : option (list attr) :=
  match e with
  | EArray a _ _ _ | EAssign a _ _ _ | EAsync a _ _ _ | EAwait a _ _ | EBinary a _ _ _ | EBlock a _ _ _
  | EBreak a _ _ | ECall a _ _ _ _ | ECast a _ _ | EClosure a _ _ _ | EConst a _ _ _ | EContinue a _
  | EField a _ _ | EForLoop a _ _ _ _ | EGroup a _ _ | EIf a _ _ _ _ _ _ | EIndex a _ _ _ | EInfer a _
  | ELet a _ _ | ELit a _ _ | ELoop a _ _ _ | EMacro a _ | EMatch a _ _ _ _ | EMethodCall a _ _ _ _ _
  | EParen a _ _ | EPath a _ | ERange a _ _ _ | ERawAddr a _ _ | EReference a _ _ | ERepeat a _ _ _ _
  | EReturn a _ _ | EStruct a _ _ _ _ _ _ | ETry a _ _ | ETryBlock a _ _ _ | ETuple a _ _ _ | EUnary a _ _
  | EUnsafe a _ _ _ | EWhile a _ _ _ _ | EYield a _ _ => Some a
  | EVerbatim _ => None
  | EHook _ _ _ => None   (* never met: source programs contain no [EHook] *)
  end.

Definition set_attrs (a : list attr) (e : expr) : expr :=
  match e with
  | EArray _ s es cs => EArray a s es cs
  | EAssign _ l q r => EAssign a l q r
  | EAsync _ k s b => EAsync a k s b
  | EAwait _ e k => EAwait a e k
  | EBinary _ l o r => EBinary a l o r
  | EBlock _ l s b => EBlock a l s b
  | EBreak _ k e => EBreak a k e
  | ECall _ f s es cs => ECall a f s es cs
  | ECast _ e t => ECast a e t
  | EClosure _ h o b => EClosure a h o b
  | EConst _ k s b => EConst a k s b
  | EContinue _ k => EContinue a k
  | EField _ e m => EField a e m
  | EForLoop _ k e s b => EForLoop a k e s b
  | EGroup _ s e => EGroup a s e
  | EIf _ k c s b ek el => EIf a k c s b ek el
  | EIndex _ e s i => EIndex a e s i
  | EInfer _ k => EInfer a k
  | ELet _ k e => ELet a k e
  | ELit _ l s => ELit a l s
  | ELoop _ k s b => ELoop a k s b
  | EMacro _ m => EMacro a m
  | EMatch _ k e s arms => EMatch a k e s arms
  | EMethodCall _ e m s es cs => EMethodCall a e m s es cs
  | EParen _ s e => EParen a s e
  | EPath _ p => EPath a p
  | ERange _ s l t => ERange a s l t
  | ERawAddr _ k e => ERawAddr a k e
  | EReference _ k e => EReference a k e
  | ERepeat _ s e m l => ERepeat a s e m l
  | EReturn _ s e => EReturn a s e
  | EStruct _ p s fs cs d r => EStruct a p s fs cs d r
  | ETry _ e s => ETry a e s
  | ETryBlock _ k s b => ETryBlock a k s b
  | ETuple _ s es cs => ETuple a s es cs
  | EUnary _ o e => EUnary a o e
  | EUnsafe _ k s b => EUnsafe a k s b
  | EWhile _ k c s b => EWhile a k c s b
  | EYield _ k e => EYield a k e
  | EVerbatim ts => EVerbatim ts
  | EHook h o r => EHook h o r
  end.

(** * Printing ([ToTokens]) *)

(** [Punctuated]: elements with their separators (and a possible trailing one) *)
Fixpoint punctuated (l : list (list tt)) (cs : list tt) : list tt :=
  match l with
  | [] => []
  | x :: r => x ++ match cs with [] => punctuated r [] | c :: cs' => c :: punctuated r cs' end
  end.

Definition opt_toks {A} (f : A -> list tt) (o : option A) : list tt :=
  match o with Some x => f x | None => [] end.

(** [ToTokens] of [syn] for each node.  The parentheses that [syn] adds to trees that were not parsed from
    text are not modelled. *)
Definition mtoks (m : mac) : list tt :=
  match m with Mac p d sp ts _ => path_toks p ++ [qp "!"; TGroup d ts sp] end.
Fixpoint etoks (e : expr) : list tt :=
  match e with
  | EArray a sp es cs => outer_toks a ++ [TGroup Bracket (punctuated (map etoks es) cs) sp]
  | EAssign a l q r => outer_toks a ++ etoks l ++ q ++ etoks r
  | EAsync a kw sp b => outer_toks a ++ kw ++ [TGroup Brace (flat_map stoks b) sp]
  | EAwait a e k => outer_toks a ++ etoks e ++ k
  | EBinary a l o r => outer_toks a ++ etoks l ++ o ++ etoks r
  | EBlock a lbl sp b => outer_toks a ++ lbl ++ [TGroup Brace (inner_toks a ++ flat_map stoks b) sp]
  | EBreak a kw e => outer_toks a ++ kw ++ opt_toks etoks e
  | ECall a f sp es cs => outer_toks a ++ etoks f ++ [TGroup Parenth (punctuated (map etoks es) cs) sp]
  | ECast a e ty => outer_toks a ++ etoks e ++ ty
  | EClosure a hd _ body => outer_toks a ++ hd ++ etoks body
  | EConst a kw sp b => outer_toks a ++ kw ++ [TGroup Brace (inner_toks a ++ flat_map stoks b) sp]
  | EContinue a kw => outer_toks a ++ kw
  | EField a e m => outer_toks a ++ etoks e ++ m
  | EForLoop a kw e sp b => outer_toks a ++ kw ++ etoks e ++ [TGroup Brace (inner_toks a ++ flat_map stoks b) sp]
  | EGroup a sp e => outer_toks a ++ [TGroup NoDelim (etoks e) sp]
  | EIf a kw c sp b ek el =>
      outer_toks a ++ kw ++ etoks c ++ [TGroup Brace (flat_map stoks b) sp] ++ ek ++ opt_toks etoks el
  | EIndex a e sp i => outer_toks a ++ etoks e ++ [TGroup Bracket (etoks i) sp]
  | EInfer a kw => outer_toks a ++ kw
  | ELet a kw e => outer_toks a ++ kw ++ etoks e
  | ELit a l sp => outer_toks a ++ [TLit l sp]
  | ELoop a kw sp b => outer_toks a ++ kw ++ [TGroup Brace (inner_toks a ++ flat_map stoks b) sp]
  | EMacro a m => outer_toks a ++ mtoks m
  | EMatch a kw e sp arms => outer_toks a ++ kw ++ etoks e ++ [TGroup Brace (inner_toks a ++ flat_map armtoks arms) sp]
  | EMethodCall a e m sp es cs => outer_toks a ++ etoks e ++ m ++ [TGroup Parenth (punctuated (map etoks es) cs) sp]
  | EParen a sp e => outer_toks a ++ [TGroup Parenth (etoks e) sp]
  | EPath a p => outer_toks a ++ path_toks p
  | ERange a s lim t => outer_toks a ++ opt_toks etoks s ++ lim ++ opt_toks etoks t
  | ERawAddr a kw e => outer_toks a ++ kw ++ etoks e
  | EReference a kw e => outer_toks a ++ kw ++ etoks e
  | ERepeat a sp e semi len => outer_toks a ++ [TGroup Bracket (etoks e ++ semi ++ etoks len) sp]
  | EReturn a sp e => outer_toks a ++ TIdent "return" sp :: opt_toks etoks e
  | EStruct a p sp fs cs dots rest =>
      outer_toks a ++ path_toks p ++
      [TGroup Brace (punctuated (map fieldtoks fs) cs ++ dots ++ opt_toks etoks rest) sp]
  | ETry a e sp => outer_toks a ++ etoks e ++ [TPunct "?" sp]
  | ETryBlock a kw sp b => outer_toks a ++ kw ++ [TGroup Brace (flat_map stoks b) sp]
  | ETuple a sp es cs => outer_toks a ++ [TGroup Parenth (punctuated (map etoks es) cs) sp]
  | EUnary a o e => outer_toks a ++ o ++ etoks e
  | EUnsafe a kw sp b => outer_toks a ++ kw ++ [TGroup Brace (inner_toks a ++ flat_map stoks b) sp]
  | EWhile a kw c sp b => outer_toks a ++ kw ++ etoks c ++ [TGroup Brace (inner_toks a ++ flat_map stoks b) sp]
  | EYield a kw e => outer_toks a ++ kw ++ opt_toks etoks e
  | EVerbatim ts => ts
  | EHook _ _ r => etoks r
  end
with stoks (s : stmt) : list tt :=
  match s with
  | SLocal a pat semi => outer_toks a ++ pat ++ semi
  | SLocalInit a pat e ek el semi => outer_toks a ++ pat ++ etoks e ++ ek ++ opt_toks etoks el ++ semi
  | SItem i => itoks i
  | SExpr e semi => etoks e ++ opt_toks (fun sp => [TPunct ";" sp]) semi
  | SMacro a m semi => outer_toks a ++ mtoks m ++ semi
  end
with itoks (i : item) : list tt :=
  match i with
  | IFn a vis s sp b => outer_toks a ++ vis ++ sg_toks s ++ [TGroup Brace (inner_toks a ++ flat_map stoks b) sp]
  | IImpl a hd sp its => outer_toks a ++ hd ++ [TGroup Brace (inner_toks a ++ flat_map iitoks its) sp]
  | IMod a hd sp its => outer_toks a ++ hd ++ [TGroup Brace (inner_toks a ++ flat_map itoks its) sp]
  | IConst a hd e semi | IStatic a hd e semi => outer_toks a ++ hd ++ etoks e ++ semi
  | ITrait a hd sp its => outer_toks a ++ hd ++ [TGroup Brace (inner_toks a ++ flat_map titoks its) sp]
  | IMacro a name m semi =>
      outer_toks a ++ (match m, name with
                       | Mac p d sp ts _, Some n => path_toks p ++ [qp "!"; qi n; TGroup d ts sp]
                       | m, None => mtoks m
                       end) ++ semi
  | IOther a ts => outer_toks a ++ ts
  end
with iitoks (i : impl_item) : list tt :=
  match i with
  | IIFn a vis s sp b => outer_toks a ++ vis ++ sg_toks s ++ [TGroup Brace (inner_toks a ++ flat_map stoks b) sp]
  | IIConst a hd e semi => outer_toks a ++ hd ++ etoks e ++ semi
  | IIMacro a m semi => outer_toks a ++ mtoks m ++ semi
  | IIOther a ts => outer_toks a ++ ts
  end
with titoks (i : trait_item) : list tt :=
  match i with
  | TIConst a hd e semi => outer_toks a ++ hd ++ etoks e ++ semi
  | TIFn a s sp b => outer_toks a ++ sg_toks s ++ [TGroup Brace (inner_toks a ++ flat_map stoks b) sp]
  | TIMacro a m semi => outer_toks a ++ mtoks m ++ semi
  | TIOther a ts => outer_toks a ++ ts
  end
with armtoks (r : arm) : list tt :=
  match r with
  | Arm a pat ik guard arrow body comma =>
      outer_toks a ++ pat ++ ik ++ opt_toks etoks guard ++ arrow ++ etoks body ++ comma
  end
with fieldtoks (f : fieldv) : list tt :=
  match f with
  | FieldV a m colon e => outer_toks a ++ m ++ match colon with [] => [] | _ => colon ++ etoks e end
  end.

(** walk_macro.rs 48-77: a parsed element printed back, with its punctuation; the attributes of a file are
    dropped (line 49 takes [file.items] only). *)
Definition vtoks (v : evaluable) : list tt :=
  match v with
  | VFile _ its p => flat_map itoks its ++ p
  | VItem i p => itoks i ++ p
  | VExpr e p => etoks e ++ p
  | VStmt s p => stoks s ++ p
  end.

(** What an expression looks like to the code: hooks are replaced by their result. *)
Fixpoint seen (e : expr) : expr := match e with EHook _ _ r => seen r | _ => e end.
