(** Specification of where attributes and macro calls stand in a program, independent of the walker.

    [nodes] lists every attribute list of a program in source order, each with the nodes that enclose it and, for a
    macro call, the call.  It is the same function for the input and for the output. *)
From Coq Require Import String Ascii Bool Arith List.
From Verif Require Import Base Tokens Method Paths Context Flavor Attrs Syntax AttrSpec SiteSpec.
Import ListNotations.
Open Scope string_scope.
Open Scope list_scope.

Inductive place : Type :=
| PNode        (* an expression, statement, item, field or macro call *)
| PLeaf        (* a path, a literal, [continue] or [_] that is not a tail expression *)
| PLet         (* [let] without initialiser *)
| PArm         (* a match arm *)
| POther       (* an item without code: struct, use, type, trait method without body, ... *)
| PRules       (* [macro_rules!] *)
| PFile.       (* inner attributes at the start of macro arguments *)
Definition place_eqb (p q : place) : bool :=
  match p, q with
  | PNode, PNode | PLeaf, PLeaf | PLet, PLet | PArm, PArm | POther, POther | PRules, PRules | PFile, PFile => true
  | _, _ => false
  end.

Record node : Type := mk_node {
  n_place : place;
  n_frames : list frame;       (* what encloses the node, innermost first; not the node itself *)
  n_attrs : list attr;
  n_mac : option mac }.
Definition here (p : place) (fr : list frame) (a : list attr) : node := mk_node p fr a None.
Definition leaf_place (tail : bool) : place := if tail then PNode else PLeaf.

(** [t]: the expression is a tail expression *)
Fixpoint nodes (t : bool) (fr : list frame) (e : expr) {struct e} : list node :=
  match e with
  | EHook h o r =>
      match h_consumed h with
      | Some (a, _) => here PNode fr a :: nodes false (FAttrs a :: fr) o
      | None => nodes t fr o
      end
  | ETry a e0 _ | EAwait a e0 _ | ECast a e0 _ | EField a e0 _ | EGroup a _ e0 | ELet a _ e0 | EParen a _ e0 | ERawAddr a _ e0
  | EReference a _ e0 | EUnary a _ e0 => here PNode fr a :: nodes false (FAttrs a :: fr) e0
  | EReturn a _ o | EBreak a _ o | EYield a _ o => here PNode fr a :: opt_list (nodes false (FAttrs a :: fr)) o
  | EArray a _ es _ | ETuple a _ es _ => here PNode fr a :: flat_map (nodes false (FAttrs a :: fr)) es
  | EAssign a l _ r => here PNode fr a :: nodes false (FDead :: FAttrs a :: fr) l ++ nodes false (FAttrs a :: fr) r
  | EAsync a _ _ b | EBlock a _ _ b | EConst a _ _ b | ELoop a _ _ b | ETryBlock a _ _ b | EUnsafe a _ _ b =>
      let fr' := FScope :: FAttrs a :: fr in here PNode fr a :: last_map (stmt_nodes false fr') (stmt_nodes true fr') b
  | EBinary a l _ r | EIndex a l _ r | ERepeat a _ l _ r =>
      here PNode fr a :: nodes false (FAttrs a :: fr) l ++ nodes false (FAttrs a :: fr) r
  | ECall a f _ es _ | EMethodCall a f _ _ es _ =>
      here PNode fr a :: nodes false (FAttrs a :: fr) f ++ flat_map (nodes false (FAttrs a :: fr)) es
  | EClosure a hd out body => here PNode fr a :: nodes true (FClosure a hd out :: FAttrs a :: fr) body
  | EForLoop a _ e0 _ b | EWhile a _ e0 _ b =>
      let fr' := FScope :: FAttrs a :: fr in
      here PNode fr a :: nodes false (FAttrs a :: fr) e0 ++ last_map (stmt_nodes false fr') (stmt_nodes true fr') b
  | EIf a _ c _ b _ el =>
      let fr' := FScope :: FAttrs a :: fr in
      here PNode fr a :: nodes false (FAttrs a :: fr) c ++ last_map (stmt_nodes false fr') (stmt_nodes true fr') b ++ opt_list (nodes false fr') el
  | EMacro a m => mk_node PNode fr a (Some m) :: mac_nodes (FAttrs a :: fr) m
  | EMatch a _ e0 _ arms => here PNode fr a :: nodes false (FAttrs a :: fr) e0 ++ flat_map (arm_nodes (FScope :: FAttrs a :: fr)) arms
  | ERange a s _ u => here PNode fr a :: opt_list (nodes false (FAttrs a :: fr)) s ++ opt_list (nodes false (FAttrs a :: fr)) u
  | EStruct a _ _ fs _ _ rest =>
      here PNode fr a :: flat_map (field_nodes (FAttrs a :: fr)) fs ++ opt_list (nodes false (FAttrs a :: fr)) rest
  | EContinue a _ | EInfer a _ | ELit a _ _ | EPath a _ => [here (leaf_place t) fr a]
  | EVerbatim _ => []
  end
with stmt_nodes (t : bool) (fr : list frame) (s : stmt) {struct s} : list node :=
  match s with
  | SLocal a _ _ => [here PLet fr a]
  | SLocalInit a _ e _ el _ => here PNode fr a :: nodes false (FAttrs a :: fr) e ++ opt_list (nodes false (FAttrs a :: fr)) el
  | SItem i => item_nodes fr i
  | SExpr e semi => nodes (t && match semi with None => true | Some _ => false end) fr e
  | SMacro a m _ => mk_node PNode fr a (Some m) :: mac_nodes (FAttrs a :: fr) m
  end
with item_nodes (fr : list frame) (i : item) {struct i} : list node :=
  match i with
  | IFn a _ s _ b => let fr' := FScope :: FFn s :: FAttrs a :: fr in here PNode fr a :: last_map (stmt_nodes false fr') (stmt_nodes true fr') b
  | IImpl a _ _ its => here PNode fr a :: flat_map (impl_nodes (FAttrs a :: fr)) its
  | IMod a _ _ its => here PNode fr a :: flat_map (item_nodes (FAttrs a :: fr)) its
  | IConst a _ e _ | IStatic a _ e _ => here PNode fr a :: nodes false (FAttrs a :: fr) e
  | ITrait a _ _ its => here PNode fr a :: flat_map (trait_nodes (FAttrs a :: fr)) its
  | IMacro a name m _ =>
      match name with
      | Some _ => mk_node PRules fr a (Some m) :: mac_nodes (FDead :: FAttrs a :: fr) m
      | None => mk_node PNode fr a (Some m) :: mac_nodes (FAttrs a :: fr) m
      end
  | IOther a _ => [here POther fr a]
  end
with impl_nodes (fr : list frame) (i : impl_item) {struct i} : list node :=
  match i with
  | IIFn a _ s _ b => let fr' := FScope :: FFn s :: FAttrs a :: fr in here PNode fr a :: last_map (stmt_nodes false fr') (stmt_nodes true fr') b
  | IIConst a _ e _ => here PNode fr a :: nodes false (FAttrs a :: fr) e
  | IIMacro a m _ => mk_node PNode fr a (Some m) :: mac_nodes (FAttrs a :: fr) m
  | IIOther a _ => [here POther fr a]
  end
with trait_nodes (fr : list frame) (i : trait_item) {struct i} : list node :=
  match i with
  | TIConst a _ e _ => here PNode fr a :: nodes false (FAttrs a :: fr) e
  | TIFn a s _ b => let fr' := FScope :: FFn s :: FAttrs a :: fr in here PNode fr a :: last_map (stmt_nodes false fr') (stmt_nodes true fr') b
  | TIMacro a m _ => mk_node PNode fr a (Some m) :: mac_nodes (FAttrs a :: fr) m
  | TIOther a _ => [here POther fr a]
  end
with arm_nodes (fr : list frame) (r : arm) {struct r} : list node :=
  match r with
  | Arm a _ _ guard _ body _ => here PArm fr a :: opt_list (nodes false fr) guard ++ nodes true fr body
  end
with field_nodes (fr : list frame) (f : fieldv) {struct f} : list node :=
  match f with FieldV a _ _ e => here PNode fr a :: nodes false (FAttrs a :: fr) e end
with mac_nodes (fr : list frame) (m : mac) {struct m} : list node :=
  match m with
  | Mac _ _ _ _ None => []
  | Mac _ _ _ _ (Some l) => flat_map (ev_nodes (FMacro :: fr)) l
  end
with ev_nodes (fr : list frame) (v : evaluable) {struct v} : list node :=
  match v with
  | VFile fa its _ => here PFile fr fa :: flat_map (item_nodes fr) its
  | VItem i _ => item_nodes fr i
  | VExpr e _ => nodes false fr e
  | VStmt s _ => stmt_nodes false fr s
  end.

(** the frames inside the node *)
Definition n_inside (n : node) : list frame := FAttrs (n_attrs n) :: n_frames n.

(** [n] is a node of the source and [n'] what became of it *)
Definition spot (it out : item) (n n' : node) : Prop :=
  exists i, nth_error (item_nodes [] it) i = Some n /\ nth_error (item_nodes [] out) i = Some n'.
