(** Rendering of a method (method/render/mod.rs, method/render/meta_vars.rs).  *)
From Coq Require Import String Ascii Bool Arith DecimalString List.
From Verif Require Import Base Tokens Method Paths Context.
Import ListNotations.
Open Scope string_scope.
Open Scope list_scope.

(** meta_vars.rs 4-18 *)
Inductive metavar : Type :=
| MVLine | MVColumn | MVPath | MVFile | MVExpr | MVSource | MVCount | MVFnName | MVFnSig
| MVSoFar | MVBindings | MVHooqMeta.

(** meta_vars.rs 20-33 *)
Definition meta_vars_list : list metavar :=
  [MVLine; MVColumn; MVPath; MVFile; MVExpr; MVSource; MVCount; MVFnName; MVFnSig; MVSoFar; MVBindings; MVHooqMeta].

(** meta_vars.rs 35-55; [None] is the [Err(binding)] case *)
Definition metavar_of (s : string) : option metavar :=
  if String.eqb s "line" then Some MVLine
  else if String.eqb s "column" || String.eqb s "col" then Some MVColumn
  else if String.eqb s "path" then Some MVPath
  else if String.eqb s "file" then Some MVFile
  else if String.eqb s "expr" then Some MVExpr
  else if String.eqb s "source" then Some MVSource
  else if String.eqb s "nth" || String.eqb s "count" then Some MVCount
  else if String.eqb s "fnname" || String.eqb s "fn_name" then Some MVFnName
  else if String.eqb s "fnsig" || String.eqb s "fn_sig" then Some MVFnSig
  else if String.eqb s "sofar" || String.eqb s "so_far" then Some MVSoFar
  else if String.eqb s "bindings" || String.eqb s "vars" then Some MVBindings
  else if String.eqb s "hooqmeta" || String.eqb s "hooq_meta" then Some MVHooqMeta
  else None.

(** meta_vars.rs 57-78 *)
Definition metavar_str (m : metavar) : string :=
  match m with
  | MVLine => "line" | MVColumn => "column" | MVPath => "path" | MVFile => "file" | MVExpr => "expr"
  | MVSource => "source" | MVCount => "count" | MVFnName => "fn_name" | MVFnSig => "fn_sig"
  | MVSoFar => "so_far" | MVBindings => "bindings" | MVHooqMeta => "hooq_meta"
  end.

(** [rsplit('/').next()]: what follows the last slash *)
Fixpoint after_last_slash (s cur : string) : string :=
  match s with
  | EmptyString => cur
  | String c r => if Ascii.eqb c "/" then after_last_slash r "" else after_last_slash r (cur ++ String c "")%string
  end.
(** render/mod.rs 14-19 *)
Definition get_file_name (sp : span) : string := after_last_slash (sp_file sp) "".

(** [usize] in decimal *)
Definition dec (n : nat) : string := NilEmpty.string_of_uint (Nat.to_uint n).

(** render/mod.rs 161-169 *)
Definition ordinal_suffix (count : nat) : string :=
  let n := count mod 100 in
  if ((11 <=? n) && (n <=? 13))%nat then "th"
  else match n mod 10 with
       | 1 => "st"
       | 2 => "nd"
       | 3 => "rd"
       | _ => "th"
       end.
(** render/mod.rs 158-172 *)
Definition count_str (k : kind) (count : nat) : string :=
  (dec count ++ ordinal_suffix count ++ " " ++ kind_str k)%string.

(** render/mod.rs 99-153: the loop over the tokens.  [var] expands an identifier that follows [$], [grp] a
    group; [flag] is [next_is_replace_target]. *)
Definition expand_loop (grp : tt -> res tt) (var : string -> res (list tt)) : bool -> list tt -> res (list tt) :=
  fix go (flag : bool) (l : list tt) : res (list tt) :=
    match l with
    | [] => Ok []
    | t :: r =>
        match t with
        | TPunct c _ =>                                                              (* 101-110 *)
            if flag then Err ErrDollar
            else if Ascii.eqb c "$" then go true r
            else bindR (go false r) (fun r' => Ok (t :: r'))
        | TIdent s _ =>                                                              (* 111-125 *)
            if flag then bindR (var s) (fun v => bindR (go false r) (fun r' => Ok (v ++ r')))
            else bindR (go false r) (fun r' => Ok (t :: r'))
        | TGroup _ _ _ =>                                                            (* 126-141 *)
            if flag then Err ErrDollar
            else bindR (grp t) (fun g => bindR (go false r) (fun r' => Ok (g :: r')))
        | TLit _ _ =>                                                                (* 142-151 *)
            if flag then Err ErrDollar
            else bindR (go false r) (fun r' => Ok (t :: r'))
        end
    end.
(** render/mod.rs 126-141: a group is rebuilt around its expanded contents ([Group::new], call-site span) *)
Fixpoint expand_group (var : string -> res (list tt)) (t : tt) : res tt :=
  match t with
  | TGroup d ts _ => bindR (expand_loop (expand_group var) var false ts) (fun ts' => Ok (TGroup d ts' call_site))
  | _ => Ok t
  end.
(** render/mod.rs 89-156 for a given meaning of variables *)
Definition expand_with (var : string -> res (list tt)) (ts : list tt) : res (list tt) :=
  expand_loop (expand_group var) var false ts.

Section Render.
  (** [TokenStream::to_string] (proc_macro2), not modelled. *)
  Variable ts_str : list tt -> string.

  Variable c : ctx.                 (* hook_context *)
  Variable k : kind.                (* kind *)
  Variable count : nat.             (* counter of that kind *)
  Variable source : list tt.        (* source_tokenstream *)
  Variable ets : list tt.           (* expr.to_token_stream() *)
  Variable q : span.                (* q_span *)

  (** render/mod.rs 174-184 *)
  Definition get_fn_name : string :=
    match fval (cx_fn c) with Some i => fn_info_name i | None => "<unknown>" end.
  Definition get_fn_sig : string :=
    match fval (cx_fn c) with Some i => ts_str (fn_info_sig_toks i) | None => "<unknown>" end.

  (** render/mod.rs 193-203: one entry *)
  Definition binding_tuple (kv : string * list tt) : list tt :=
    let '(key, v) := kv in
    [qg Parenth
      (qpath ["std"; "string"; "ToString"; "to_string"] ++ [qg Parenth [qs key]; qp ","; qg Brace
        ([qi "let"; qi "expr"; qp "="] ++ qpath ["std"; "string"; "ToString"; "to_string"] ++
         [qg Parenth [qs (ts_str v)]; qp ";"] ++
         [qi "let"; qi "value"; qp ":"] ++ qpath ["std"; "rc"; "Rc"] ++ [qp "<"; qi "dyn"] ++
         qpath ["std"; "any"; "Any"] ++ [qp ">"; qp "="] ++ qpath ["std"; "rc"; "Rc"; "new"] ++
         [qg Parenth v; qp ";"] ++
         qpath ["hooq"; "BindingPayload"] ++ [qg Brace [qi "expr"; qp ","; qi "value"; qp ","]])])].
  (** [#(#tuples),*] *)
  Fixpoint commas (l : list (list tt)) : list tt :=
    match l with
    | [] => []
    | [x] => x
    | x :: r => x ++ qp "," :: commas r
    end.
  (** render/mod.rs 186-211 *)
  Definition get_bindings_token_stream : list tt :=
    qpath ["std"; "collections"; "HashMap"; "from"] ++
    [qg Parenth [qg Bracket (commas (map binding_tuple (available_bindings c)))]].

  (** [quote!] of a [usize] *)
  Definition qn (n : nat) : tt := TLit (LUsize n) call_site.

  (** render/mod.rs 297-317 *)
  Definition hooq_meta : list tt :=
    qpath ["hooq"; "HooqMeta"] ++ [qg Brace
      ([qi "line"; qp ":"; qn (sp_line q); qp ",";
        qi "column"; qp ":"; qn (sp_col q); qp ",";
        qi "path"; qp ":"; qs (sp_file q); qp ",";
        qi "file"; qp ":"; qs (get_file_name q); qp ",";
        qi "source_str"; qp ":"; qs (ts_str source); qp ",";
        qi "count"; qp ":"; qs (count_str k count); qp ",";
        qi "bindings"; qp ":"] ++ get_bindings_token_stream ++ [qp ","])].

  (** render/mod.rs 213-345; [so_far] is the expansion of the overridden method (278-295) *)
  Definition meta_var_toks (so_far : res (list tt)) (name : string) : res (list tt) :=
    match metavar_of name with
    | Some MVLine => Ok [qn (sp_line q)]
    | Some MVColumn => Ok [qn (sp_col q)]
    | Some MVPath => Ok [qs (sp_file q)]
    | Some MVFile => Ok [qs (get_file_name q)]
    | Some MVExpr => Ok ets
    | Some MVSource => Ok source
    | Some MVCount => Ok [qs (count_str k count)]
    | Some MVFnName => Ok [qs get_fn_name]
    | Some MVFnSig => Ok [qs get_fn_sig]
    | Some MVSoFar => so_far
    | Some MVBindings => Ok get_bindings_token_stream
    | Some MVHooqMeta => Ok hooq_meta
    | None => match get_binding c name with
              | Some v => Ok v
              | None => Err (ErrUnknownVar name (map fst (available_bindings c)) (map metavar_str meta_vars_list))
              end
    end.

  (** render/mod.rs 89-156 for the template of the method held by [f]; [$so_far] expands the template of the
      method [f] overrides, with that method as the new current one (279-294).  [method_context = None]
      corresponds to [f = cx_method c]. *)
  Fixpoint expand_method (f : field method) : res (list tt) :=
    match f with
    | Field m anc =>
        expand_with (meta_var_toks (match anc with Some a => expand_method a | None => Err ErrNoSoFar end))
                    (m_template m)
    end.

  (** render/mod.rs 22-87 up to [parse_quote!]: the tokens handed to the parser *)
  Definition render_toks : res (list tt) :=
    bindR (expand_method (cx_method c)) (fun ts =>
    let ts' := map (set_span q) ts in
    match fval (cx_method c) with
    | Insert dot _ _ => Ok (ets ++ TPunct "." dot :: ts')
    | Replace _ _ => Ok ts'
    end).
End Render.
