(** Settings and contexts (inert_attr/context.rs, utils/function_info.rs, inert_attr/mod.rs).  *)
From Coq Require Import String Ascii Bool Arith List.
From Verif Require Import Base Tokens Method Paths.
Import ListNotations.
Open Scope string_scope.
Open Scope list_scope.

(** context.rs 66-72: [LocalContextField<T>], a value and the ancestor it overrides. *)
Inductive field (T : Type) : Type := Field (val : T) (anc : option (field T)).
Arguments Field {T}.
Definition fval {T} (f : field T) : T := match f with Field v _ => v end.
(** context.rs 93-95 *)
Definition fanc {T} (f : field T) : option (field T) := match f with Field _ a => a end.

(** context.rs 75-80 *)
Definition field_new {T} (v : T) : field T := Field v None.
(** context.rs 82-91 *)
Definition from_parent {T} (v : option T) (parent : field T) : field T :=
  match v with Some v => Field v (Some parent) | None => parent end.
(** context.rs 110-126 *)
Definition merged_from_parent {V} (new_map : smap V) (parent : field (smap V)) : field (smap V) :=
  match new_map with
  | [] => from_parent None parent
  | _ => from_parent (Some (mextend (fval parent) new_map)) parent
  end.

(** context.rs 129-133 *)
Inductive skip_status : Type := SkipSameScope | SkipAll.

(** context.rs 135-140 *)
Record switch : Type := mk_switch { sw_question : bool; sw_return : bool; sw_tail : bool }.

(** context.rs 142-168 *)
Definition switch_add (s : string) (w : switch) : option switch :=
  if String.eqb s "?" || String.eqb s "question" then Some (mk_switch true (sw_return w) (sw_tail w))
  else if String.eqb s "return" then Some (mk_switch (sw_question w) true (sw_tail w))
  else if String.eqb s "tail_expr" || String.eqb s "tail expr" || String.eqb s "tailexpr" || String.eqb s "tailExpr"
       then Some (mk_switch (sw_question w) (sw_return w) true)
  else if String.eqb s "all" then Some (mk_switch true true true)
  else None.
Fixpoint switch_from (l : list string) (w : switch) : switch + string :=
  match l with
  | [] => inl w
  | s :: r => match switch_add s w with Some w' => switch_from r w' | None => inr s end
  end.
(** [HookTargetSwitch::try_from]; [inr] carries the offending word *)
Definition switch_try_from (l : list string) : switch + string :=
  switch_from l (mk_switch false false false).

(** function_info.rs 11-14, 47-50.  A function is its signature; a closure is its return type, the tokens of
    the closure with the body replaced by [{}], and its name. *)
Inductive fn_info : Type :=
| FnInfo (s : sig)
| ClosureInfo (out : ret_ty) (toks : list tt) (name : string).

(** function_info.rs 25-37: the nearest enclosing function (closures are passed over) *)
Fixpoint ancestor_fn_name (f : field (option fn_info)) : option string :=
  match f with
  | Field v anc =>
      match v with
      | Some (FnInfo s) => Some (sg_name s)
      | _ => match anc with Some p => ancestor_fn_name p | None => None end
      end
  end.
(** function_info.rs 16-43 ([toks] is the printed closure with its body replaced, line 23) *)
Definition closure_info_new (out : ret_ty) (toks : list tt) (current : field (option fn_info)) : fn_info :=
  let anc_name := match ancestor_fn_name current with Some n => n | None => "<unknown>" end in
  ClosureInfo out toks ("__closure_in_" ++ anc_name ++ "__")%string.

(** function_info.rs 59-64 *)
Definition fn_info_name (i : fn_info) : string :=
  match i with FnInfo s => sg_name s | ClosureInfo _ _ n => n end.
(** function_info.rs 66-71, before [to_string] *)
Definition fn_info_sig_toks (i : fn_info) : list tt :=
  match i with FnInfo s => sg_toks s | ClosureInfo _ ts _ => ts end.
(** function_info.rs 83-91 *)
Definition return_type_is_result_inner (rt : ret_ty) (result_types : list string) : bool :=
  match rt with
  | RetPath p => existsb (path_is_end_of p) result_types
  | _ => false
  end.
(** function_info.rs 73-80 *)
Definition fn_info_is_result (i : fn_info) (result_types : list string) : bool :=
  match i with
  | FnInfo s => return_type_is_result_inner (sg_out s) result_types
  | ClosureInfo out _ _ => return_type_is_result_inner out result_types
  end.

(** context.rs 170-184; the counter of context.rs 188 is the state of the monad [M].
    Binding values are only ever printed, so an [Expr] is kept as its tokens. *)
Record ctx : Type := mk_ctx {
  cx_method : field method;
  cx_targets : field switch;
  cx_tails : field (list string);
  cx_ignores : field (list string);
  cx_results : field (list string);
  cx_macros : field bool;
  cx_bindings : field (smap (list tt));
  cx_skip : field (option skip_status);
  cx_fn : field (option fn_info) }.

(** inert_attr/mod.rs 11-22 *)
Record inert : Type := mk_inert {
  in_method : option method;
  in_targets : option switch;
  in_tails : option (list string);
  in_ignores : option (list string);
  in_results : option (list string);
  in_macros : option bool;
  in_bindings : smap (list tt);
  in_skip : bool;
  in_skip_all : bool }.

(** inert_attr/mod.rs 25-31 *)
Definition get_skip_status (i : inert) : option skip_status :=
  match in_skip_all i, in_skip i with
  | true, _ => Some SkipAll
  | false, true => Some SkipSameScope
  | _, _ => None
  end.

(** context.rs 224-283 *)
Definition updated_by_inert_attr (p : ctx) (i : inert) : ctx :=
  {| cx_method := from_parent (in_method i) (cx_method p);
     cx_targets := from_parent (in_targets i) (cx_targets p);
     cx_tails := from_parent (in_tails i) (cx_tails p);
     cx_ignores := from_parent (in_ignores i) (cx_ignores p);
     cx_results := from_parent (in_results i) (cx_results p);
     cx_macros := from_parent (in_macros i) (cx_macros p);
     cx_bindings := merged_from_parent (in_bindings i) (cx_bindings p);
     cx_skip := from_parent (option_map Some (get_skip_status i)) (cx_skip p);
     cx_fn := cx_fn p |}.

(** context.rs 298-314 *)
Definition for_sub_scope (p : ctx) : ctx :=
  {| cx_method := cx_method p; cx_targets := cx_targets p; cx_tails := cx_tails p;
     cx_ignores := cx_ignores p; cx_results := cx_results p; cx_macros := cx_macros p;
     cx_bindings := cx_bindings p;
     cx_skip := match fval (cx_skip p) with
                | Some SkipAll => from_parent (Some (Some SkipAll)) (cx_skip p)
                | _ => from_parent (Some None) (cx_skip p)
                end;
     cx_fn := cx_fn p |}.

(** context.rs 316-319 *)
Definition update_fn_info (p : ctx) (i : fn_info) : ctx :=
  {| cx_method := cx_method p; cx_targets := cx_targets p; cx_tails := cx_tails p;
     cx_ignores := cx_ignores p; cx_results := cx_results p; cx_macros := cx_macros p;
     cx_bindings := cx_bindings p; cx_skip := cx_skip p;
     cx_fn := from_parent (Some (Some i)) (cx_fn p) |}.

(** context.rs 321-323 *)
Definition is_skipped (p : ctx) : bool := match fval (cx_skip p) with Some _ => true | None => false end.
(** context.rs 325-327 *)
Definition hook_in_macros (p : ctx) : bool := fval (cx_macros p).
(** context.rs 329-334 *)
Definition path_is_hook_call_like_err (p : ctx) (q : path) : bool := existsb (path_is_end_of q) (fval (cx_tails p)).
(** context.rs 336-341 *)
Definition path_is_not_hook_call_like_ok (p : ctx) (q : path) : bool := existsb (path_is_end_of q) (fval (cx_ignores p)).
(** context.rs 343-352 *)
Definition return_type_is_result (p : ctx) : bool :=
  match fval (cx_fn p) with Some i => fn_info_is_result i (fval (cx_results p)) | None => false end.

(** context.rs 380-386 *)
Definition is_hook_target (p : ctx) (k : kind) : bool :=
  match k with
  | Question => sw_question (fval (cx_targets p))
  | Return => sw_return (fval (cx_targets p))
  | TailExpr => sw_tail (fval (cx_targets p))
  end.

(** [String: Ord] compares bytes *)
Fixpoint str_leb (a b : string) : bool :=
  match a, b with
  | EmptyString, _ => true
  | _, EmptyString => false
  | String x a', String y b' =>
      match Nat.compare (nat_of_ascii x) (nat_of_ascii y) with
      | Lt => true
      | Gt => false
      | Eq => str_leb a' b'
      end
  end.

(** [sort_by(|(k1, _), (k2, _)| k1.cmp(k2))], a stable sort; written as insertion sort *)
Fixpoint insert_sorted {A} (x : string * A) (l : list (string * A)) : list (string * A) :=
  match l with
  | [] => [x]
  | y :: r => if str_leb (fst x) (fst y) then x :: l else y :: insert_sorted x r
  end.
Fixpoint sort_by_key {A} (l : list (string * A)) : list (string * A) :=
  match l with [] => [] | x :: r => insert_sorted x (sort_by_key r) end.

(** context.rs 388-404 *)
Definition available_bindings (p : ctx) : list (string * list tt) := sort_by_key (fval (cx_bindings p)).
(** context.rs 406-412 *)
Definition get_binding (p : ctx) (k : string) : option (list tt) := mget k (fval (cx_bindings p)).
