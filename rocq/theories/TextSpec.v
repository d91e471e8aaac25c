(** Specification of the text of a hook: a function of the enclosing nodes and of the target.  *)
From Coq Require Import String Ascii Bool Arith Sorted List.
From Verif Require Import Base Tokens Method Paths Context Flavor Attrs Syntax RenderSpec AttrSpec SiteSpec ProgSpec SettingSpec.
Import ListNotations.
Open Scope string_scope.
Open Scope list_scope.

Section Text.
  Variable ts_str : list tt -> string.     (* TokenStream::to_string *)
  Variable f : fcore.                      (* the root flavor *)
  Variable tr : list step.                 (* the enclosing nodes *)
  Variable k : kind.
  Variable count : nat.
  Variable source ets : list tt.
  Variable q : span.

  (** the bindings in effect, each once, sorted by name *)
  Definition bindings_at (l : list (string * list tt)) : Prop :=
    NoDup (keys l) /\ StronglySorted (fun x y => str_le (fst x) (fst y)) l /\
    forall x v, In (x, v) l <-> the_binding f x tr = Some v.
  (** what [$name] stands for *)
  Inductive var_at : string -> list tt -> Prop :=
  | va_line : var_at "line" (num_lit (sp_line q))
  | va_column : forall n, In n ["column"; "col"] -> var_at n (num_lit (sp_col q))
  | va_path : var_at "path" (str_lit (sp_file q))
  | va_file : forall x, last_component (sp_file q) x -> var_at "file" (str_lit x)
  | va_expr : var_at "expr" ets
  | va_source : var_at "source" source
  | va_count : forall n ds suf, In n ["count"; "nth"] -> decimal count ds -> english ds suf ->
      var_at n (str_lit (ds ++ suf ++ " " ++ kind_word k))
  | va_fn_name : forall n, In n ["fn_name"; "fnname"] -> var_at n (str_lit (fn_name tr))
  | va_fn_sig : forall n, In n ["fn_sig"; "fnsig"] ->
      var_at n (str_lit (match fn_sig tr with Some ts => ts_str ts | None => "<unknown>" end))
  | va_bindings : forall n l ts, In n ["bindings"; "vars"] -> bindings_at l ->
      read_bindings ts = Some (map (fun b => (fst b, ts_str (snd b), snd b)) l) -> var_at n ts
  | va_meta : forall n ts line column path file cnt bs, In n ["hooq_meta"; "hooqmeta"] ->
      var_at "line" line -> var_at "column" column -> var_at "path" path -> var_at "file" file -> var_at "count" cnt -> var_at "bindings" bs ->
      read_meta ts = Some [line; column; path; file; str_lit (ts_str source); cnt; bs] -> var_at n ts
  | va_binding : forall n v, ~ In n builtin -> the_binding f n tr = Some v -> var_at n v.

  (** the method in effect with [$so_far] standing for the methods it overrides; positions of tokens aside *)
  Definition method_text (out : list tt) : Prop :=
    exists body, stack_exp var_at (map m_template (all_methods f tr)) body /\ nospan out = nospan body.
  (** what is put in place of the target *)
  Inductive hook_text : list tt -> Prop :=
  | ht_insert : forall dot ts b out, the_method f tr = Insert dot ts b -> method_text out -> hook_text (ets ++ TPunct "." dot :: out)
  | ht_replace : forall ts b out, the_method f tr = Replace ts b -> method_text out -> hook_text out.
End Text.
