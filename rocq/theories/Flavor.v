(** Flavors (flavor/mod.rs, flavor/flavor_path.rs, flavor/presets, flavor/toml_load).  *)
From Coq Require Import String Ascii Bool Arith List.
From Verif Require Import Base Tokens Method Paths Context.
Import ListNotations.
Open Scope string_scope.
Open Scope list_scope.

(** flavor/mod.rs 20-30, all fields but [sub_flavors] *)
Record fcore : Type := mk_fcore {
  fl_traits : list path;
  fl_method : method;
  fl_targets : switch;
  fl_tails : list string;
  fl_ignores : list string;
  fl_results : list string;
  fl_macros : bool;
  fl_bindings : smap (list tt) }.

(** flavor/mod.rs 20-30 *)
Inductive flavor : Type := Flavor (core : fcore) (subs : list (string * flavor)).
Definition f_core (f : flavor) : fcore := match f with Flavor c _ => c end.
Definition f_subs (f : flavor) : smap flavor := match f with Flavor _ s => s end.

(** flavor/mod.rs 32-50, given the method *)
Definition default_core (m : method) : fcore :=
  {| fl_traits := []; fl_method := m; fl_targets := mk_switch true true true;
     fl_tails := ["Err"]; fl_ignores := ["Ok"]; fl_results := ["Result"];
     fl_macros := true; fl_bindings := [] |}.

(** [Flavor { method: m, bindings: b, ..Default::default() }] and the same with trait uses *)
Definition core_with (t : list path) (m : method) (b : smap (list tt)) : fcore :=
  {| fl_traits := t; fl_method := m; fl_targets := mk_switch true true true;
     fl_tails := ["Err"]; fl_ignores := ["Ok"]; fl_results := ["Result"];
     fl_macros := true; fl_bindings := b |}.

(** * Flavor paths (flavor/flavor_path.rs) *)

(** flavor_path.rs 14-38 *)
Definition flavor_path_of_path (p : path) : res (list string) :=
  mapR (fun s => match seg_args s with
                 | _ :: _ => Err ErrFlavorGeneric
                 | [] => if String.eqb (seg_id s) "" then Err ErrFlavorName else Ok (seg_id s)
                 end) (p_segs p).

(** [str::split('.')]; [cur] is the current piece, reversed *)
Fixpoint split_dot (s : string) (cur : string) : list string :=
  match s with
  | EmptyString => [cur]
  | String c r => if Ascii.eqb c "." then cur :: split_dot r "" else split_dot r (cur ++ String c "")%string
  end.
(** [str::split("::")] *)
Fixpoint split_cc (s : string) (cur : string) : list string :=
  match s with
  | EmptyString => [cur]
  | String c r =>
      match r with
      | String c2 r2 => if Ascii.eqb c ":" && Ascii.eqb c2 ":" then cur :: split_cc r2 ""
                        else split_cc r (cur ++ String c "")%string
      | EmptyString => split_cc r (cur ++ String c "")%string
      end
  end.
(** flavor_path.rs 48-66 *)
Definition flavor_path_of_string (s : string) : res (list string) :=
  mapR (fun s => if String.eqb s "" then Err ErrFlavorName else Ok s)
       (flat_map (fun s => split_cc s "") (split_dot s "")).

(** * Look-up (flavor/mod.rs) *)

(** flavor/mod.rs 163-165: the loop over the rest of the path *)
Fixpoint descend (f : flavor) (l : list string) : option flavor :=
  match l with
  | [] => Some f
  | n :: r => match mget n (f_subs f) with Some f' => descend f' r | None => None end
  end.
(** flavor/mod.rs 159-168 *)
Definition get_flavor_inner (st : smap flavor) (p : list string) : option flavor :=
  match p with
  | [] => None
  | n :: r => match mget n st with Some f => descend f r | None => None end
  end.

(** flavor/mod.rs 186-194 *)
Fixpoint collect_names (f : flavor) (prefix : string) : list string :=
  match f with
  | Flavor _ subs =>
      flat_map (fun nf => let full := (prefix ++ "::" ++ fst nf)%string in full :: collect_names (snd nf) full) subs
  end.
(** flavor/mod.rs 185-204 *)
Definition all_flavor_names (st : smap flavor) : list string :=
  flat_map (fun nf => fst nf :: collect_names (snd nf) (fst nf)) st.

(** flavor/mod.rs 170-183 *)
Definition get_flavor (st : smap flavor) (p : list string) : res flavor :=
  match get_flavor_inner st p with
  | Some f => Ok f
  | None => Err (ErrFlavorNotFound p (all_flavor_names st))
  end.

(** * Presets (flavor/presets) *)

(** The crate features that select presets, and the crate name (utils/get_hooq_crate_name.rs). *)
Record features : Type := mk_features {
  ft_consume : bool;        (* consume-question *)
  ft_log : bool; ft_anyhow : bool; ft_eyre : bool; ft_tracing : bool;
  ft_crate : string         (* result of get_hooq_crate_name, 6-18: [CrateName.hooq_crate_name] *) }.

(** get_hooq_crate_name.rs 20-32 *)
Definition helpers_path (crate : string) : list tt :=
  if String.eqb crate "hooq_macros" then qpath [crate] else qpath [crate; "source_excerpt_helpers"].

Definition dollar (s : string) : list tt := [qp "$"; qi s].
(** [let NAME = $VAR;] *)
Definition let_meta (n v : string) : list tt := [qi "let"; qi n; qp "="] ++ dollar v ++ [qp ";"].
(** [let expr = HELPERS::MAC!($source);] *)
Definition let_expr (crate mac : string) : list tt :=
  [qi "let"; qi "expr"; qp "="] ++ helpers_path crate ++ qpath [mac] ++ [qp "!"; qg Parenth (dollar "source"); qp ";"].
(** the beginning shared by most preset methods *)
Definition preset_prefix (crate mac : string) : list tt :=
  let_meta "path" "path" ++ let_meta "line" "line" ++ let_meta "col" "col" ++ let_expr crate mac.

(** flavor/mod.rs 52-71 *)
Definition default_method_toks (crate : string) : list tt :=
  [qp "."; qi "inspect_err"; qg Parenth [qp "|"; qi "e"; qp "|"; qg Brace
     (preset_prefix crate "excerpted_pretty_stringify" ++
      qpath ["std"; "eprintln"] ++ [qp "!"; qg Parenth [qs ("[{path}:{line}:{col}] {e:?}" ++ newline ++ "{expr}")%string]; qp ";"])]].
(** presets/empty.rs 28-32 *)
Definition empty_method_toks : list tt := dollar "expr".
(** presets/hook.rs 16-22 *)
Definition hook_method_toks : list tt :=
  [qp "."; qi "hook"; qg Parenth [qp "|"; qp "|"; qg Brace (dollar "hooq_meta")]].
(** presets/log.rs 45-59 *)
Definition log_method_toks (crate : string) : list tt :=
  [qp "."; qi "inspect_err"; qg Parenth [qp "|"; qi "e"; qp "|"; qg Brace
     (preset_prefix crate "excerpted_pretty_stringify" ++ let_meta "level" "level" ++
      qpath ["log"; "log"] ++ [qp "!"; qg Parenth [qi "level"; qp ","; qs ("({path}:{line}:{col}) {e}" ++ newline ++ "{expr}")%string]; qp ";"])]].
(** presets/anyhow.rs 15-28, presets/eyre.rs 29-42 *)
Definition context_method_toks (name crate : string) : list tt :=
  [qp "."; qi name; qg Parenth [qp "|"; qp "|"; qg Brace
     (preset_prefix crate "excerpted_pretty_stringify" ++
      [qi "format"; qp "!"; qg Parenth [qs ("[{path}:{line}:{col}]" ++ newline ++ "{expr}")%string]])]].
(** presets/tracing.rs 45-65 *)
Definition tracing_method_toks (crate : string) : list tt :=
  [qp "."; qi "inspect_err"; qg Parenth [qp "|"; qi "e"; qp "|"; qg Brace
     (preset_prefix crate "one_line_stringify" ++
      qpath ["tracing"; "event"] ++ [qp "!"; qg Parenth
        (dollar "level" ++ [qp ","; qi "path"; qp ","; qi "line"; qp ","; qi "col"; qp ",";
                            qi "error"; qp "="; qp "%"; qi "e"; qp ","; qi "expr"; qp ","]); qp ";"])]].

(** flavor/mod.rs 52-71, presets/default.rs 3-5 *)
Definition default_method (ft : features) : method := parse_method (ft_consume ft) (default_method_toks (ft_crate ft)).
Definition default_flavor (ft : features) : flavor := Flavor (default_core (default_method ft)) [].
(** presets/empty.rs 10-26 *)
Definition empty_flavor (ft : features) : flavor :=
  Flavor {| fl_traits := []; fl_method := parse_method (ft_consume ft) empty_method_toks;
            fl_targets := mk_switch false false false; fl_tails := []; fl_ignores := []; fl_results := [];
            fl_macros := false; fl_bindings := [] |} [].
(** presets/hook.rs 7-14 *)
Definition hook_flavor (ft : features) : flavor :=
  Flavor (core_with [] (parse_method (ft_consume ft) hook_method_toks) []) [].
Definition level_binding (l : list string) : smap (list tt) := [("level", qpath l)].
(** presets/log.rs 16-43 *)
Definition log_flavor (ft : features) : flavor :=
  let m := parse_method (ft_consume ft) (log_method_toks (ft_crate ft)) in
  Flavor (core_with [] m (level_binding ["log"; "Level"; "Error"]))
    (map (fun nl => (fst nl, Flavor (core_with [] m (level_binding ["log"; "Level"; snd nl])) []))
       [("error", "Error"); ("warn", "Warn"); ("info", "Info"); ("debug", "Debug"); ("trace", "Trace")]).
(** presets/tracing.rs 16-43 *)
Definition tracing_flavor (ft : features) : flavor :=
  let m := parse_method (ft_consume ft) (tracing_method_toks (ft_crate ft)) in
  Flavor (core_with [] m (level_binding ["tracing"; "Level"; "ERROR"]))
    (map (fun nl => (fst nl, Flavor (core_with [] m (level_binding ["tracing"; "Level"; snd nl])) []))
       [("error", "ERROR"); ("warn", "WARN"); ("info", "INFO"); ("debug", "DEBUG"); ("trace", "TRACE")]).
Definition abs_path (l : list string) : path := mk_path true (map (fun s => mk_seg s [] call_site) l).
(** presets/anyhow.rs 7-13 *)
Definition anyhow_flavor (ft : features) : flavor :=
  Flavor (core_with [abs_path ["anyhow"; "Context"]]
            (parse_method (ft_consume ft) (context_method_toks "with_context" (ft_crate ft))) []) [].
(** presets/eyre.rs 7-16 and 18-27 *)
Definition eyre_flavor (ft : features) : flavor :=
  Flavor (core_with [abs_path ["eyre"; "ContextCompat"]; abs_path ["eyre"; "WrapErr"]]
            (parse_method (ft_consume ft) (context_method_toks "wrap_err_with" (ft_crate ft))) []) [].
Definition color_eyre_flavor (ft : features) : flavor :=
  Flavor (core_with [abs_path ["color_eyre"; "eyre"; "ContextCompat"]; abs_path ["color_eyre"; "eyre"; "WrapErr"]]
            (parse_method (ft_consume ft) (context_method_toks "wrap_err_with" (ft_crate ft))) []) [].
(** presets/mod.rs 20-39 *)
Definition preset_flavors (ft : features) : smap flavor :=
  [("default", default_flavor ft); ("empty", empty_flavor ft); ("hook", hook_flavor ft)]
  ++ (if ft_log ft then [("log", log_flavor ft)] else [])
  ++ (if ft_anyhow ft then [("anyhow", anyhow_flavor ft)] else [])
  ++ (if ft_eyre ft then [("eyre", eyre_flavor ft); ("color_eyre", color_eyre_flavor ft)] else [])
  ++ (if ft_tracing ft then [("tracing", tracing_flavor ft)] else []).

(** * hooq.toml (flavor/toml_load) *)

(** toml_load/mod.rs 13-27, all fields but [sub_flavors]; serde's reading of the file is not modelled *)
Record tcore : Type := mk_tcore {
  tb_traits : list string;
  tb_method : option string;
  tb_targets : option (list string);
  tb_tails : option (list string);
  tb_ignores : option (list string);
  tb_results : option (list string);
  tb_macros : option bool;
  tb_bindings : smap string }.
(** toml_load/mod.rs 13-27 *)
Inductive ftable : Type := FTable (core : tcore) (subs : list (string * ftable)).

(** apply.rs 20-33, inert_attr/parse.rs 53-68: (plain names, names that had a leading [!]) *)
Definition strip_bang (s : string) : option string :=
  match s with String c r => if Ascii.eqb c "!" then Some r else None | EmptyString => None end.
Fixpoint split_include (l : list string) : list string * list string :=
  match l with
  | [] => ([], [])
  | s :: r => let '(i, n) := split_include r in
              match strip_bang s with Some s' => (i, s' :: n) | None => (s :: i, n) end
  end.

(** apply.rs 80, 107-128: what becomes of [ignore_tail_expr_idents] *)
Definition ignore_setting (tails ignores : option (list string)) : option (list string) :=
  let s1 := match tails with
            | Some l => match snd (split_include l) with [] => None | n => Some n end
            | None => None
            end in
  match ignores with
  | Some l => match s1 with Some v => Some (v ++ l) | None => Some l end
  | None => s1
  end.

Section Toml.
  (** [syn::parse_str::<Path>], [syn::parse_str::<TokenStream>], [syn::parse_str::<Expr>] (as tokens):
      parsers of [syn] and [proc_macro2], not modelled. *)
  Variable parse_path_str : string -> option path.
  Variable parse_ts_str : string -> option (list tt).
  Variable parse_expr_str : string -> option (list tt).
  Variable consume : bool.

  Definition opt_res {A} (e : err) (o : option A) : res A := match o with Some a => Ok a | None => Err e end.

  (** apply.rs 80-147: the settings of one table written over a flavor *)
  Definition apply_table (t : tcore) (f : fcore) : res fcore :=
    bindR (mapR (fun s => opt_res (ErrParse "trait_uses") (parse_path_str s)) (tb_traits t)) (fun traits =>
    bindR (match tb_method t with
           | None => Ok (fl_method f)
           | Some s => bindR (opt_res (ErrParse "method") (parse_ts_str s)) (fun ts => Ok (parse_method consume ts))
           end) (fun m =>
    bindR (match tb_targets t with
           | None => Ok (fl_targets f)
           | Some l => match switch_try_from l with inl w => Ok w | inr e => Err (ErrHookTargets e) end
           end) (fun w =>
    bindR (mapR (fun kv => bindR (opt_res (ErrParse "bindings") (parse_expr_str (snd kv))) (fun ts => Ok (fst kv, ts)))
                (tb_bindings t)) (fun bs =>
    Ok {| fl_traits := traits; fl_method := m; fl_targets := w;
          fl_tails := match tb_tails t with Some l => fst (split_include l) | None => fl_tails f end;
          fl_ignores := match ignore_setting (tb_tails t) (tb_ignores t) with Some l => l | None => fl_ignores f end;
          fl_results := match tb_results t with Some l => l | None => fl_results f end;
          fl_macros := match tb_macros t with Some b => b | None => fl_macros f end;
          fl_bindings := mextend (fl_bindings f) bs |})))).

  (** apply.rs 40-153, one turn of the loop: [fs] is the map being updated, [base] the flavor that new
      names start from.  [upd_subs] is the recursive call of line 151 (made only when there are sub tables,
      line 149; with none it is the identity). *)
  Definition update_one (upd_subs : smap flavor -> flavor -> res (smap flavor))
             (name : string) (t : tcore) (base : flavor) (fs : smap flavor) : res (smap flavor) :=
    if String.eqb name "" then Err ErrEmptyFlavorName
    else if String.eqb name "empty" then Err ErrOverrideEmpty
    else let f := match mget name fs with Some f => f | None => base end in
         bindR (apply_table t (f_core f)) (fun c =>
         let f' := Flavor c (f_subs f) in
         bindR (upd_subs (f_subs f) f') (fun subs =>
         Ok (minsert name (Flavor c subs) fs))).

  (** apply.rs 35-156: iteration over the map, one table after the other *)
  Fixpoint update_table (nt : ftable) (name : string) (base : flavor) (fs : smap flavor) {struct nt} : res (smap flavor) :=
    match nt with
    | FTable t subs =>
        update_one (fun fs0 base0 =>
          (fix loop (l : list (string * ftable)) (acc : smap flavor) : res (smap flavor) :=
             match l with
             | [] => Ok acc
             | (n, s) :: r => bindR (update_table s n base0 acc) (fun acc' => loop r acc')
             end) subs fs0) name t base fs
    end.
  Fixpoint update_flavor_inner (l : list (string * ftable)) (base : flavor) (fs : smap flavor) : res (smap flavor) :=
    match l with
    | [] => Ok fs
    | (n, s) :: r => bindR (update_table s n base fs) (fun fs' => update_flavor_inner r base fs')
    end.

  (** apply.rs 11-18 *)
  Definition update_flavors (ft : features) (toml : smap ftable) (fs : smap flavor) : res (smap flavor) :=
    update_flavor_inner toml (default_flavor ft) fs.

  (** flavor/mod.rs 207-228: a toml is stored only when this succeeds *)
  Definition store_try_from (ft : features) (toml : smap ftable) : res (smap flavor) :=
    update_flavors ft toml (preset_flavors ft).
End Toml.
