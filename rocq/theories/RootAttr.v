(** The arguments of [#[hooq(...)]] and the entry point (root_attr/mod.rs, root_attr/parse.rs, impls/mod.rs).  *)
From Coq Require Import String Ascii Bool Arith List.
From Verif Require Import Base Tokens Method Paths Context Flavor Attrs Syntax Render Walker.
Import ListNotations.
Open Scope string_scope.
Open Scope list_scope.

(** root_attr/mod.rs 38-43 (the span is not modelled) *)
Record root_attr : Type := mk_root { ra_traits : list path; ra_flavor : option (list string) }.

(** root_attr/mod.rs 13-27: the settings of the flavor, with the trait uses completed *)
Record root_ctx : Type := mk_root_ctx { rc_traits : list path; rc_core : fcore }.

Section Root.
  (** [parse2::<Paths>]: comma separated paths (root_attr/parse.rs 67-80), a [syn] parser *)
  Variable parse_paths : list tt -> option (list path).
  (** [FlavorStore::with_hooq_toml()?.get_flavor(path)] *)
  Variable lookup : list string -> res fcore.

  (** root_attr/parse.rs 17-23, one turn of the loop, and 56-123 *)
  Definition root_step (r : root_attr) (m : meta) : res root_attr :=
    match m with
    | MPath p =>                                                              (* 56-65 *)
        bindR (flavor_path_of_path p) (fun l =>
        Ok (match l with [] => r | _ => mk_root (ra_traits r) (Some l) end))
    | MList p _ ts _ =>                                                       (* 82-94 *)
        if path_is_ident p "trait_use" || path_is_ident p "trait_uses" then
          match parse_paths ts with
          | Some l => Ok (mk_root (ra_traits r ++ l) (ra_flavor r))
          | None => Err (ErrParse "paths")
          end
        else Err ErrRootFormat
    | MNameValue p v =>                                                       (* 96-123 *)
        match v with
        | VStr s _ => if path_is_ident p "flavor"
                      then bindR (flavor_path_of_string s) (fun l => Ok (mk_root (ra_traits r) (Some l)))
                      else Err ErrRootFormat
        | _ => Err ErrRootFormat
        end
    end.
  Fixpoint root_loop (l : list meta) (r : root_attr) : res root_attr :=
    match l with [] => Ok r | m :: l' => bindR (root_step r m) (root_loop l') end.
  (** root_attr/parse.rs 11-31 on the comma separated metas *)
  Definition parse_root (l : list meta) : res root_attr := root_loop l (mk_root [] None).

  (** root_attr/mod.rs 45-93 *)
  Definition root_load (r : root_attr) : res root_ctx :=
    let p := match ra_flavor r with Some l => l | None => ["default"] end in
    bindR (lookup p) (fun f => Ok (mk_root_ctx (ra_traits r ++ fl_traits f) f)).
End Root.

(** root_attr/mod.rs 30-35 *)
Definition trait_use_toks (p : path) : list tt :=
  [qp "#"; qg Bracket [qi "allow"; qg Parenth [qi "unused"]]; qi "use"] ++ path_toks p ++ [qi "as"; qi "_"; qp ";"].
Definition trait_uses_toks (r : root_ctx) : list tt := flat_map trait_use_toks (rc_traits r).

(** context.rs 192-222 *)
Definition ctx_new (f : fcore) : ctx :=
  {| cx_method := field_new (fl_method f); cx_targets := field_new (fl_targets f);
     cx_tails := field_new (fl_tails f); cx_ignores := field_new (fl_ignores f);
     cx_results := field_new (fl_results f); cx_macros := field_new (fl_macros f);
     cx_bindings := field_new (fl_bindings f); cx_skip := field_new None; cx_fn := field_new None |}.

(** impls/mod.rs 15-28: the trait uses to emit and the walked item *)
Definition hooq_impls_parts (parse_paths : list tt -> option (list path)) (E : env)
           (args : list meta) (it : item) : res (list path * item) :=
  bindR (parse_root parse_paths args) (fun ra =>
  bindR (root_load (ae_flavor (ev_attr E)) ra) (fun rc =>
  match walk_item E (ctx_new (rc_core rc)) it counter0 with
  | Ok (it', _) => Ok (rc_traits rc, it')
  | Err e => Err e
  | Panic m => Panic m
  end)).
(** impls/mod.rs 23-27: the printed result *)
Definition hooq_impls (parse_paths : list tt -> option (list path)) (E : env)
           (args : list meta) (it : item) : res (list tt) :=
  bindR (hooq_impls_parts parse_paths E args it) (fun r =>
  Ok (flat_map trait_use_toks (fst r) ++ itoks (snd r))).
