(** Specification of the settings in effect at a position: a function of the nodes that enclose it, nothing else.  *)
From Coq Require Import String Ascii Bool Arith List.
From Verif Require Import Base Tokens Method Paths Context Flavor Attrs Syntax FlavorSpec MapFacts RenderSpec AttrSpec SiteSpec ProgSpec.
Import ListNotations.
Open Scope string_scope.
Open Scope list_scope.

(** the enclosing nodes with what their attributes say *)
Inductive step : Type :=
| SNode (es : list event)
| SScope
| SFn (s : sig)
| SClosure (a : list attr) (hd : list tt) (out : ret_ty)
| SMacro
| SDead.

Section Trail.
  Variable env : attr_env.
  Inductive step_of : frame -> step -> Prop :=
  | so_attrs : forall l es, node_events env l es -> step_of (FAttrs l) (SNode es)
  | so_scope : step_of FScope SScope
  | so_fn : forall s, step_of (FFn s) (SFn s)
  | so_closure : forall a hd out, step_of (FClosure a hd out) (SClosure a hd out)
  | so_macro : step_of FMacro SMacro
  | so_dead : step_of FDead SDead.
  Definition trail (fr : list frame) (tr : list step) : Prop := Forall2 step_of fr tr.
End Trail.

(** ** Settings: the innermost node that says something, else the root flavor *)
Fixpoint innermost {A} (f : list event -> option A) (root : A) (tr : list step) : A :=
  match tr with
  | [] => root
  | SNode es :: r => match f es with Some v => v | None => innermost f root r end
  | _ :: r => innermost f root r
  end.
Definition the_method (f : fcore) : list step -> method := innermost (last_of ev_method) (fl_method f).
Definition the_targets (f : fcore) : list step -> switch := innermost (last_of ev_targets) (fl_targets f).
Definition the_tails (f : fcore) : list step -> list string := innermost (last_of ev_tails) (fl_tails f).
Definition the_ignores (f : fcore) : list step -> list string := innermost node_ignores (fl_ignores f).
Definition the_results (f : fcore) : list step -> list string := innermost (last_of ev_results) (fl_results f).
Definition the_macros (f : fcore) : list step -> bool := innermost (last_of ev_macros) (fl_macros f).
(** per name *)
Definition the_binding (f : fcore) (x : string) : list step -> option (list tt) :=
  innermost (fun es => option_map Some (last_get x (flat_map ev_binds es))) (mget x (fl_bindings f)).
(** the method in effect and those it overrides *)
Fixpoint all_methods (f : fcore) (tr : list step) : list method :=
  match tr with
  | [] => [fl_method f]
  | SNode es :: r => match last_of ev_method es with Some m => m :: all_methods f r | None => all_methods f r end
  | _ :: r => all_methods f r
  end.

(** ** Skipping *)
Definition node_skip (es : list event) : bool := existsb is_skip es.
Definition node_skip_all (es : list event) : bool := existsb is_skip_all es.
(** the innermost node that mentions skip or skip_all says skip_all *)
Fixpoint skip_all_holds (tr : list step) : bool :=
  match tr with
  | [] => false
  | SNode es :: r => if node_skip_all es then true else if node_skip es then false else skip_all_holds r
  | _ :: r => skip_all_holds r
  end.
Fixpoint skipped (tr : list step) : bool :=
  match tr with
  | [] => false
  | SNode es :: r => node_skip_all es || node_skip es || skipped r
  | SScope :: r => skip_all_holds r
  | _ :: r => skipped r
  end.

(** ** The enclosing function or closure *)
Fixpoint nearest_fn (tr : list step) : option string :=
  match tr with
  | [] => None
  | SFn s :: _ => Some (sg_name s)
  | _ :: r => nearest_fn r
  end.
Fixpoint fn_name (tr : list step) : string :=
  match tr with
  | [] => "<unknown>"
  | SFn s :: _ => sg_name s
  | SClosure _ _ _ :: r => ("__closure_in_" ++ match nearest_fn r with Some n => n | None => "<unknown>" end ++ "__")%string
  | _ :: r => fn_name r
  end.
(** the signature of a function; a closure with its attributes and an empty body *)
Fixpoint fn_sig (tr : list step) : option (list tt) :=
  match tr with
  | [] => None
  | SFn s :: _ => Some (sg_toks s)
  | SClosure a hd _ :: _ => Some (outer_toks (foreign a) ++ hd ++ [TGroup Brace [] call_site])
  | _ :: r => fn_sig r
  end.
Fixpoint returns (tr : list step) : option ret_ty :=
  match tr with
  | [] => None
  | SFn s :: _ => Some (sg_out s)
  | SClosure _ _ out :: _ => Some out
  | _ :: r => returns r
  end.

(** ** Reached by the walker *)
Fixpoint reached (f : fcore) (tr : list step) : bool :=
  match tr with
  | [] => true
  | SDead :: _ => false
  | SMacro :: r => the_macros f r && reached f r
  | _ :: r => reached f r
  end.
(** under the left side of an assignment or in macro_rules, or in a macro call where hook_in_macros is off *)
Definition unreached (env : attr_env) (f : fcore) (fr : list frame) : Prop :=
  In FDead fr \/ exists pre post tr, fr = pre ++ FMacro :: post /\ trail env post tr /\ the_macros f tr = false.

(** ** The rules *)
Definition ends_in (p : path) (ids : list string) : Prop := exists l s, p_segs p = l ++ [s] /\ In (seg_id s) ids.
(** a call [path(..)] whose last segment is one of [ids] *)
Definition calls (e : expr) (ids : list string) : Prop := exists a a2 p sp es cs, e = ECall a (EPath a2 p) sp es cs /\ ends_in p ids.
Definition fallible (f : fcore) (tr : list step) : Prop := exists p, returns tr = Some (RetPath p) /\ ends_in p (the_results f tr).
Definition question_rule (f : fcore) (tr : list step) : Prop := skipped tr = false /\ sw_question (the_targets f tr) = true.
Definition return_rule (f : fcore) (tr : list step) (v : expr) : Prop :=
  skipped tr = false /\ sw_return (the_targets f tr) = true /\
  (calls v (the_tails f tr) \/ fallible f tr /\ ~ calls v (the_ignores f tr)).
Definition tail_rule (f : fcore) (tr : list step) (fn_tail : bool) (v : expr) : Prop :=
  skipped tr = false /\ sw_tail (the_targets f tr) = true /\
  (calls v (the_tails f tr) \/ fn_tail = true /\ fallible f tr /\ ~ calls v (the_ignores f tr)).

(** ** What a hook was made with *)
Record in_effect (f : fcore) (tr : list step) (c : ctx) : Prop := mk_effect {
  ie_methods : chain (cx_method c) = all_methods f tr;
  ie_method : fval (cx_method c) = the_method f tr;
  ie_targets : fval (cx_targets c) = the_targets f tr;
  ie_tails : fval (cx_tails c) = the_tails f tr;
  ie_ignores : fval (cx_ignores c) = the_ignores f tr;
  ie_results : fval (cx_results c) = the_results f tr;
  ie_macros : fval (cx_macros c) = the_macros f tr;
  ie_bindings : forall x, mget x (fval (cx_bindings c)) = the_binding f x tr;
  ie_nodup : NoDup (keys (fl_bindings f)) -> NoDup (keys (fval (cx_bindings c)));
  ie_skip : fval (cx_skip c) = (if skip_all_holds tr then Some SkipAll else if skipped tr then Some SkipSameScope else None);
  ie_nearest : ancestor_fn_name (cx_fn c) = nearest_fn tr;
  ie_name : match fval (cx_fn c) with Some i => fn_info_name i | None => "<unknown>" end = fn_name tr;
  ie_sig : option_map fn_info_sig_toks (fval (cx_fn c)) = fn_sig tr;
  ie_returns : option_map (fun i => match i with FnInfo s => sg_out s | ClosureInfo o _ _ => o end) (fval (cx_fn c)) = returns tr }.
