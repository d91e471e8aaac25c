(** Specification of moving hooq attributes between an item and its surroundings.  *)
From Coq Require Import String Ascii Bool Arith Permutation List.
From Verif Require Import Base Tokens Method Paths Context Flavor Attrs Syntax AttrSpec.
Import ListNotations.
Open Scope string_scope.
Open Scope list_scope.

(** the attributes of an item that the macro reads; the others ([struct], [use], [macro_rules!], ...) are left alone *)
Definition own (i : item) : list attr :=
  match i with
  | IFn a _ _ _ _ | IImpl a _ _ _ | IMod a _ _ _ | IConst a _ _ _ | IStatic a _ _ _ | ITrait a _ _ _ | IMacro a None _ _ => a
  | IMacro _ (Some _) _ _ | IOther _ _ => []
  end.
Definition impl_own (i : impl_item) : list attr :=
  match i with IIFn a _ _ _ _ | IIConst a _ _ _ | IIMacro a _ _ => a | IIOther _ _ => [] end.
Definition trait_own (i : trait_item) : list attr :=
  match i with TIConst a _ _ _ | TIFn a _ _ _ | TIMacro a _ _ => a | TIOther _ _ => [] end.

(** the item with [x] written in front of its attributes *)
Definition give (x : list attr) (i : item) : item :=
  match i with
  | IFn a vis s sp b => IFn (x ++ a) vis s sp b
  | IImpl a hd sp l => IImpl (x ++ a) hd sp l
  | IMod a hd sp l => IMod (x ++ a) hd sp l
  | IConst a hd e semi => IConst (x ++ a) hd e semi
  | IStatic a hd e semi => IStatic (x ++ a) hd e semi
  | ITrait a hd sp l => ITrait (x ++ a) hd sp l
  | IMacro a None m semi => IMacro (x ++ a) None m semi
  | IMacro _ (Some _) _ _ | IOther _ _ => i
  end.
Definition impl_give (x : list attr) (i : impl_item) : impl_item :=
  match i with
  | IIFn a vis s sp b => IIFn (x ++ a) vis s sp b
  | IIConst a hd e semi => IIConst (x ++ a) hd e semi
  | IIMacro a m semi => IIMacro (x ++ a) m semi
  | IIOther _ _ => i
  end.
Definition trait_give (x : list attr) (i : trait_item) : trait_item :=
  match i with
  | TIConst a hd e semi => TIConst (x ++ a) hd e semi
  | TIFn a s sp b => TIFn (x ++ a) s sp b
  | TIMacro a m semi => TIMacro (x ++ a) m semi
  | TIOther _ _ => i
  end.

(** [o] says nothing that would add to what [es] says: a method that could refer to the method before it by
    [$so_far], names appended to the ignored ones, or a second skip *)
Definition says_ignores (e : event) : bool := ev_touches e || match ev_assigned e with Some _ => true | None => false end.
Definition says_skip (e : event) : bool := is_skip e || is_skip_all e.
Record apart (es o : list event) : Prop := mk_apart {
  ap_method : Forall (fun e => ev_method e = None) es \/ Forall (fun e => ev_method e = None) o;
  ap_ignores : Forall (fun e => says_ignores e = false) es \/ Forall (fun e => ev_touches e = false) o;
  ap_skip : Forall (fun e => says_skip e = false) es \/ Forall (fun e => says_skip e = false) o }.
(** every attribute of the list is a hooq attribute *)
Definition all_hooq (x : list attr) : Prop := Forall (fun a => hooq_path (meta_path (at_meta a)) = true) x.

(** * Attributes in another order *)
Definition says {A} (g : event -> option A) (e : event) : bool := match g e with Some _ => true | None => false end.
Definition binds (k : string) (e : event) : bool := existsb (String.eqb k) (keys (ev_binds e)).
(** two attributes that set different things: two of [hook_targets], [result_types], ..., two bindings of different names, a skip and anything *)
Record free (e e' : event) : Prop := mk_free {
  fr_method : ~ (says ev_method e = true /\ says ev_method e' = true);
  fr_targets : ~ (says ev_targets e = true /\ says ev_targets e' = true);
  fr_tails : ~ (says ev_tails e = true /\ says ev_tails e' = true);
  fr_ignores : ~ (says_ignores e = true /\ says_ignores e' = true);
  fr_results : ~ (says ev_results e = true /\ says ev_results e' = true);
  fr_macros : ~ (says ev_macros e = true /\ says ev_macros e' = true);
  fr_binds : forall k, ~ (binds k e = true /\ binds k e' = true) }.
(** the hooq attributes of [a] in another order, and among the others in another way; the others stay in order *)
Definition shuffle (env : attr_env) (a a' : list attr) : Prop :=
  foreign a = foreign a' /\ exists es es', node_events env a es /\ node_events env a' es' /\ Permutation es es' /\ ForallOrdPairs free es.
