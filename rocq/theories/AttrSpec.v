(** Specification of the hooq attributes, independent of the reader in Attrs.v.  *)
From Coq Require Import String Ascii Bool Arith List.
From Verif Require Import Base Tokens Method MethodSpec Paths Context Flavor Attrs FlavorSpec MapFacts.
Import ListNotations.
Open Scope string_scope.
Open Scope list_scope.

(** [hooq::NAME] as documented: two plain segments, no leading [::] *)
Definition plain_path (p : path) (n : string) : Prop :=
  exists sp1 sp2, p = mk_path false [mk_seg "hooq" [] sp1; mk_seg n [] sp2].

(** an attribute whose path is [hooq::<one segment>], also with [::] in front or with generic arguments *)
Definition hooq_path (p : path) : bool :=
  match p_segs p with [s; _] => String.eqb (seg_id s) "hooq" | _ => false end.
Definition foreign (l : list attr) : list attr := filter (fun a => negb (hooq_path (meta_path (at_meta a)))) l.

(** what an attribute says *)
Inductive event : Type :=
| EvMethod (m : method)
| EvTargets (w : switch)
| EvTails (l : list string)                       (* the list as written, with [!] *)
| EvTailsFrom (tails ignores : list string)       (* from a flavor *)
| EvIgnores (l : list string)
| EvResults (l : list string)
| EvMacros (b : bool)
| EvBind (l : list (string * list tt))
| EvSkip
| EvSkipAll
| EvFlavor (f : fcore).

(** string literals separated by commas *)
Inductive string_list : list tt -> list string -> Prop :=
| sl_nil : string_list [] []
| sl_last : forall s sp, string_list [TLit (LStr s) sp] [s]
| sl_more : forall s sp sp2 r l, string_list r l -> string_list (TLit (LStr s) sp :: TPunct "," sp2 :: r) (s :: l).

(** the flavor named by a value (names in strings: C28) *)
Inductive names_flavor : mvalue -> list string -> Prop :=
| nf_path : forall p, Forall (fun s => seg_args s = [] /\ seg_id s <> "") (p_segs p) -> names_flavor (VPath p) (p_idents p)
| nf_str : forall s sp l, splits l s -> Forall (fun n => n <> "") l -> names_flavor (VStr s sp) l.

(** names that [#[hooq::xxx = ...]] must not use (attributes.md, binding) *)
Definition reserved : list string :=
  ["flavor"; "method"; "hook_targets"; "tail_expr_idents"; "ignore_tail_expr_idents"; "result_types"; "hook_in_macros";
   "bindings"; "binding"; "var"; "skip"; "skip_all"].

Section Means.
  Variable env : attr_env.
  Definition flavor_named (v : mvalue) (f : fcore) : Prop := exists l, names_flavor v l /\ ae_flavor env l = Ok f.

  (** the documented meaning of an attribute *)
  Inductive means : meta -> event -> Prop :=
  | mn_method : forall p d ts sp m, plain_path p "method" -> method_of (ae_consume env) ts m -> means (MList p d ts sp) (EvMethod m)
  | mn_targets : forall p d ts sp l w, plain_path p "hook_targets" -> string_list ts l -> targets_of l w -> means (MList p d ts sp) (EvTargets w)
  | mn_tails : forall p d ts sp l, plain_path p "tail_expr_idents" -> string_list ts l -> means (MList p d ts sp) (EvTails l)
  | mn_ignores : forall p d ts sp l, plain_path p "ignore_tail_expr_idents" -> string_list ts l -> means (MList p d ts sp) (EvIgnores l)
  | mn_results : forall p d ts sp l, plain_path p "result_types" -> string_list ts l -> means (MList p d ts sp) (EvResults l)
  | mn_macros_on : forall p d sp sp2, plain_path p "hook_in_macros" -> means (MList p d [TIdent "true" sp2] sp) (EvMacros true)
  | mn_macros_off : forall p d sp sp2, plain_path p "hook_in_macros" -> means (MList p d [TIdent "false" sp2] sp) (EvMacros false)
  | mn_binding : forall p d ts sp sg v, plain_path p "binding" \/ plain_path p "var" -> ae_mnv env ts = Some (mk_path false [sg], v) ->
      seg_args sg = [] -> means (MList p d ts sp) (EvBind [(seg_id sg, v)])
  | mn_bind : forall p sp1 sp2 n v, p = mk_path false [mk_seg "hooq" [] sp1; mk_seg n [] sp2] -> ~ In n reserved ->
      means (MNameValue p v) (EvBind [(n, mvalue_toks v)])
  | mn_skip : forall p, plain_path p "skip" -> means (MPath p) EvSkip
  | mn_skip_all : forall p, plain_path p "skip_all" -> means (MPath p) EvSkipAll
  | mn_from_flavor : forall p v f, plain_path p "flavor" -> flavor_named v f -> means (MNameValue p v) (EvFlavor f)
  | mn_from_method : forall p v f, plain_path p "method" -> flavor_named v f -> means (MNameValue p v) (EvMethod (fl_method f))
  | mn_from_targets : forall p v f, plain_path p "hook_targets" -> flavor_named v f -> means (MNameValue p v) (EvTargets (fl_targets f))
  | mn_from_tails : forall p v f, plain_path p "tail_expr_idents" -> flavor_named v f -> means (MNameValue p v) (EvTailsFrom (fl_tails f) (fl_ignores f))
  | mn_from_results : forall p v f, plain_path p "result_types" -> flavor_named v f -> means (MNameValue p v) (EvResults (fl_results f))
  | mn_from_macros : forall p v f, plain_path p "hook_in_macros" -> flavor_named v f -> means (MNameValue p v) (EvMacros (fl_macros f))
  | mn_from_bindings : forall p v f, plain_path p "bindings" -> flavor_named v f -> means (MNameValue p v) (EvBind (fl_bindings f)).

  (** accepted though not documented: [#[hooq::skip = v]], [#[::hooq::method = v]] and the like define a binding *)
  Inductive odd : meta -> event -> Prop :=
  | odd_reserved : forall p sp1 sp2 n v, p = mk_path false [mk_seg "hooq" [] sp1; mk_seg n [] sp2] ->
      In n ["binding"; "var"; "skip"; "skip_all"] -> odd (MNameValue p v) (EvBind [(n, mvalue_toks v)])
  | odd_path : forall p s1 s2 v, p_segs p = [s1; s2] -> seg_id s1 = "hooq" ->
      p_lead p = true \/ seg_args s1 <> [] \/ seg_args s2 <> [] -> odd (MNameValue p v) (EvBind [(seg_id s2, mvalue_toks v)]).
  Definition reads (m : meta) (e : event) : Prop := means m e \/ odd m e.

  (** the events of an attribute list, in order *)
  Inductive node_events : list attr -> list event -> Prop :=
  | ne_nil : node_events [] []
  | ne_hooq : forall a l e es, hooq_path (meta_path (at_meta a)) = true -> reads (at_meta a) e -> node_events l es -> node_events (a :: l) (e :: es)
  | ne_foreign : forall a l es, hooq_path (meta_path (at_meta a)) = false ->
      ~ (exists s r, p_segs (meta_path (at_meta a)) = s :: r /\ seg_id s = "hooq" /\ 2 <= length r) ->
      node_events l es -> node_events (a :: l) es.
End Means.

(** * What the events of one node set *)
Definition ev_method (e : event) : option method := match e with EvMethod m => Some m | EvFlavor f => Some (fl_method f) | _ => None end.
Definition ev_targets (e : event) : option switch := match e with EvTargets w => Some w | EvFlavor f => Some (fl_targets f) | _ => None end.
Definition ev_tails (e : event) : option (list string) :=
  match e with EvTails l => Some (plain_names l) | EvTailsFrom t _ => Some t | EvFlavor f => Some (fl_tails f) | _ => None end.
Definition ev_results (e : event) : option (list string) := match e with EvResults l => Some l | EvFlavor f => Some (fl_results f) | _ => None end.
Definition ev_macros (e : event) : option bool := match e with EvMacros b => Some b | EvFlavor f => Some (fl_macros f) | _ => None end.
Definition ev_binds (e : event) : list (string * list tt) := match e with EvBind l => l | EvFlavor f => fl_bindings f | _ => [] end.
Definition is_skip (e : event) : bool := match e with EvSkip => true | _ => false end.
Definition is_skip_all (e : event) : bool := match e with EvSkipAll => true | _ => false end.

(** ignore_tail_expr_idents: the list assigned last, then what was written after it *)
Definition ev_assigned (e : event) : option (list string) := match e with EvTailsFrom _ i => Some i | EvFlavor f => Some (fl_ignores f) | _ => None end.
Definition ev_listed (e : event) : list string := match e with EvTails l => bang_names l | EvIgnores l => l | _ => [] end.
Definition ev_touches (e : event) : bool := match e with EvIgnores _ => true | EvTails l => negb (match bang_names l with [] => true | _ => false end) | _ => false end.
Fixpoint after_assigned (es : list event) : list event :=
  match es with
  | [] => []
  | e :: r => match last_some (map ev_assigned r), ev_assigned e with
              | Some _, _ => after_assigned r
              | None, Some _ => r
              | None, None => e :: r
              end
  end.
Definition node_ignores (es : list event) : option (list string) :=
  let given := flat_map ev_listed (after_assigned es) in
  match last_some (map ev_assigned es) with
  | Some b => Some (b ++ given)
  | None => if existsb ev_touches (after_assigned es) then Some given else None
  end.
(** [None]: nothing is set on this node *)
Definition last_of {A} (f : event -> option A) (es : list event) : option A := last_some (map f es).

Record set_by (es : list event) (i : inert) : Prop := mk_set_by {
  sb_method : in_method i = last_of ev_method es;
  sb_targets : in_targets i = last_of ev_targets es;
  sb_tails : in_tails i = last_of ev_tails es;
  sb_ignores : in_ignores i = node_ignores es;
  sb_results : in_results i = last_of ev_results es;
  sb_macros : in_macros i = last_of ev_macros es;
  sb_bindings : forall k, mget k (in_bindings i) = last_get k (flat_map ev_binds es);
  sb_skip : in_skip i = existsb is_skip es;
  sb_skip_all : in_skip_all i = existsb is_skip_all es }.
