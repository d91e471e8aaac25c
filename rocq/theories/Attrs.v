(** Reading of hooq attributes (inert_attr/parse.rs, inert_attr/mod.rs).  *)
From Coq Require Import String Ascii Bool Arith List.
From Verif Require Import Base Tokens Method Paths Context Flavor.
Import ListNotations.
Open Scope string_scope.
Open Scope list_scope.

(** parse.rs 16-37 *)
Definition get_binding_name (p : path) : res (option string) :=
  match p_segs p with
  | [] => Ok None
  | s :: r => if negb (String.eqb (seg_id s) "hooq") then Ok None
              else match r with
                   | [] => Ok None
                   | [b] => Ok (Some (seg_id b))
                   | _ => Err ErrAttrPath
                   end
  end.

(** parse.rs 39-51: string literals separated by commas, a trailing comma is allowed *)
Fixpoint parse_strings (ts : list tt) : option (list string) :=
  match ts with
  | [] => Some []
  | TLit (LStr s) _ :: r =>
      match r with
      | [] => Some [s]
      | TPunct "," _ :: r' => option_map (cons s) (parse_strings r')
      | _ => None
      end
  | _ => None
  end.
Definition parse_strings_res (ts : list tt) : res (list string) :=
  match parse_strings ts with Some l => Ok l | None => Err (ErrParse "strings") end.

(** [syn::parse2::<LitBool>] (parse.rs 300): exactly one token, [true] or [false] *)
Definition parse_bool (ts : list tt) : res bool :=
  match ts with
  | [TIdent "true" _] => Ok true
  | [TIdent "false" _] => Ok false
  | _ => Err (ErrParse "bool")
  end.

(** parse.rs 149-157 *)
Definition inert0 : inert :=
  {| in_method := None; in_targets := None; in_tails := None; in_ignores := None; in_results := None;
     in_macros := None; in_bindings := []; in_skip := false; in_skip_all := false |}.

Definition set_method (x : method) (i : inert) : inert :=
  {| in_method := Some x; in_targets := in_targets i; in_tails := in_tails i; in_ignores := in_ignores i;
     in_results := in_results i; in_macros := in_macros i; in_bindings := in_bindings i;
     in_skip := in_skip i; in_skip_all := in_skip_all i |}.
Definition set_targets (x : switch) (i : inert) : inert :=
  {| in_method := in_method i; in_targets := Some x; in_tails := in_tails i; in_ignores := in_ignores i;
     in_results := in_results i; in_macros := in_macros i; in_bindings := in_bindings i;
     in_skip := in_skip i; in_skip_all := in_skip_all i |}.
Definition set_tails (x : list string) (y : option (list string)) (i : inert) : inert :=
  {| in_method := in_method i; in_targets := in_targets i; in_tails := Some x; in_ignores := y;
     in_results := in_results i; in_macros := in_macros i; in_bindings := in_bindings i;
     in_skip := in_skip i; in_skip_all := in_skip_all i |}.
Definition set_ignores (y : option (list string)) (i : inert) : inert :=
  {| in_method := in_method i; in_targets := in_targets i; in_tails := in_tails i; in_ignores := y;
     in_results := in_results i; in_macros := in_macros i; in_bindings := in_bindings i;
     in_skip := in_skip i; in_skip_all := in_skip_all i |}.
Definition set_results (x : list string) (i : inert) : inert :=
  {| in_method := in_method i; in_targets := in_targets i; in_tails := in_tails i; in_ignores := in_ignores i;
     in_results := Some x; in_macros := in_macros i; in_bindings := in_bindings i;
     in_skip := in_skip i; in_skip_all := in_skip_all i |}.
Definition set_macros (x : bool) (i : inert) : inert :=
  {| in_method := in_method i; in_targets := in_targets i; in_tails := in_tails i; in_ignores := in_ignores i;
     in_results := in_results i; in_macros := Some x; in_bindings := in_bindings i;
     in_skip := in_skip i; in_skip_all := in_skip_all i |}.
Definition add_bindings (l : list (string * list tt)) (i : inert) : inert :=
  {| in_method := in_method i; in_targets := in_targets i; in_tails := in_tails i; in_ignores := in_ignores i;
     in_results := in_results i; in_macros := in_macros i; in_bindings := mextend (in_bindings i) l;
     in_skip := in_skip i; in_skip_all := in_skip_all i |}.
Definition set_skip (i : inert) : inert :=
  {| in_method := in_method i; in_targets := in_targets i; in_tails := in_tails i; in_ignores := in_ignores i;
     in_results := in_results i; in_macros := in_macros i; in_bindings := in_bindings i;
     in_skip := true; in_skip_all := in_skip_all i |}.
Definition set_skip_all (i : inert) : inert :=
  {| in_method := in_method i; in_targets := in_targets i; in_tails := in_tails i; in_ignores := in_ignores i;
     in_results := in_results i; in_macros := in_macros i; in_bindings := in_bindings i;
     in_skip := in_skip i; in_skip_all := true |}.

(** What the attribute reader gets from outside. *)
Record attr_env : Type := mk_attr_env {
  ae_consume : bool;                                       (* feature consume-question *)
  ae_flavor : list string -> res fcore;                    (* parse.rs 116-121: look-up in the store with hooq.toml *)
  ae_mnv : list tt -> option (path * list tt)              (* syn::parse2::<MetaNameValue>, parse.rs 338: name and value tokens *) }.

Section Attrs.
  Variable env : attr_env.

  (** parse.rs 96-114 *)
  Definition get_flavor_path (v : mvalue) (setting : string) : res (list string) :=
    match v with
    | VPath p => flavor_path_of_path p
    | VStr s _ => flavor_path_of_string s
    | VOther _ => Err (ErrFlavorValue setting)
    end.
  Definition flavor_of_value (v : mvalue) (setting : string) : res fcore :=
    bindR (get_flavor_path v setting) (ae_flavor env).

  (** parse.rs 160-376, one turn of the loop: the accumulated settings and whether the attribute is kept *)
  Definition attr_step (i : inert) (m : meta) : res (inert * bool) :=
    match m with
    | MNameValue p v =>
        if path_is_hooq p "flavor" then                                        (* 163-189 *)
          bindR (flavor_of_value v "flavor") (fun f =>
          Ok (add_bindings (fl_bindings f)
               (set_macros (fl_macros f) (set_results (fl_results f)
                 (set_tails (fl_tails f) (Some (fl_ignores f))
                   (set_targets (fl_targets f) (set_method (fl_method f) i))))), false))
        else if path_is_hooq p "method" then                                   (* 196-201 *)
          bindR (flavor_of_value v "method") (fun f => Ok (set_method (fl_method f) i, false))
        else if path_is_hooq p "hook_targets" then                             (* 222-227 *)
          bindR (flavor_of_value v "hook_targets") (fun f => Ok (set_targets (fl_targets f) i, false))
        else if path_is_hooq p "tail_expr_idents" then                         (* 246-258 *)
          bindR (flavor_of_value v "tail_expr_idents") (fun f =>
          Ok (set_tails (fl_tails f) (Some (fl_ignores f)) i, false))
        else if path_is_hooq p "ignore_tail_expr_idents" then                  (* 274-283 *)
          Err ErrIgnoreAssign
        else if path_is_hooq p "result_types" then                             (* 291-296 *)
          bindR (flavor_of_value v "result_types") (fun f => Ok (set_results (fl_results f) i, false))
        else if path_is_hooq p "hook_in_macros" then                           (* 304-309 *)
          bindR (flavor_of_value v "hook_in_macros") (fun f => Ok (set_macros (fl_macros f) i, false))
        else if path_is_hooq p "bindings" then                                 (* 312-321 *)
          bindR (flavor_of_value v "bindings") (fun f => Ok (add_bindings (fl_bindings f) i, false))
        else                                                                   (* 351-358 *)
          bindR (get_binding_name p) (fun n =>
          match n with
          | Some b => Ok (add_bindings [(b, mvalue_toks v)] i, false)
          | None => Ok (i, true)
          end)
    | MList p _ ts _ =>
        if path_is_hooq p "method" then                                        (* 192-195 *)
          Ok (set_method (parse_method (ae_consume env) ts) i, false)
        else if path_is_hooq p "hook_targets" then                             (* 204-221 *)
          bindR (parse_strings_res ts) (fun l =>
          match switch_try_from l with
          | inl w => Ok (set_targets w i, false)
          | inr e => Err (ErrHookTargets e)
          end)
        else if path_is_hooq p "tail_expr_idents" then                         (* 230-245 *)
          bindR (parse_strings_res ts) (fun l =>
          let '(inc, ninc) := split_include l in
          Ok (set_tails inc (match in_ignores i with
                             | Some v => Some (v ++ ninc)
                             | None => match ninc with [] => None | _ => Some ninc end
                             end) i, false))
        else if path_is_hooq p "ignore_tail_expr_idents" then                  (* 262-272 *)
          bindR (parse_strings_res ts) (fun l =>
          Ok (set_ignores (match in_ignores i with Some v => Some (v ++ l) | None => Some l end) i, false))
        else if path_is_hooq p "result_types" then                             (* 286-290 *)
          bindR (parse_strings_res ts) (fun l => Ok (set_results l i, false))
        else if path_is_hooq p "hook_in_macros" then                           (* 299-303 *)
          bindR (parse_bool ts) (fun b => Ok (set_macros b i, false))
        else if path_is_hooq p "binding" || path_is_hooq p "var" then          (* 334-350 *)
          match ae_mnv env ts with
          | None => Err (ErrParse "binding")
          | Some (q, v) => match path_get_ident q with
                           | None => Err ErrBindingFormat
                           | Some b => Ok (add_bindings [(b, v)] i, false)
                           end
          end
        else                                                                   (* 361-367 *)
          bindR (get_binding_name p) (fun n => match n with Some _ => Err ErrAttrFormat | None => Ok (i, true) end)
    | MPath p =>
        if path_is_hooq p "skip" then Ok (set_skip i, false)                   (* 324-327 *)
        else if path_is_hooq p "skip_all" then Ok (set_skip_all i, false)      (* 329-332 *)
        else                                                                   (* 368-374 *)
          bindR (get_binding_name p) (fun n => match n with Some _ => Err ErrAttrFormat | None => Ok (i, true) end)
    end.

  (** parse.rs 159-380: the loop and the [retain] *)
  Fixpoint extract_loop (l : list attr) (i : inert) : res (inert * list attr) :=
    match l with
    | [] => Ok (i, [])
    | a :: r => bindR (attr_step i (at_meta a)) (fun ik =>
                bindR (extract_loop r (fst ik)) (fun il =>
                Ok (fst il, if snd ik then a :: snd il else snd il)))
    end.
  (** parse.rs 123-393 *)
  Definition extract (l : list attr) : res (inert * list attr) := extract_loop l inert0.

  (** mod.rs 34-49: (kept attributes, is_skipped, new context) *)
  Definition handle_inert_attrs (l : list attr) (c : ctx) : res (list attr * bool * ctx) :=
    bindR (extract l) (fun il =>
    let i := fst il in
    Ok (snd il, in_skip i || in_skip_all i || is_skipped c, updated_by_inert_attr c i)).
End Attrs.
