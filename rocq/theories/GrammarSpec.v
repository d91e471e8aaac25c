(** Specification of a part of the grammar of Rust: the code the presets insert.

    The relations read tokens from the front: [an_expr ts r] says that [ts] begins with an expression and [r] follows it.  *)
From Coq Require Import String Ascii Bool Arith List.
From Verif Require Import Base Tokens.
Import ListNotations.
Open Scope string_scope.
Open Scope list_scope.

(** the words that are no names (The Rust Reference, Keywords) *)
Definition keywords : list string :=
  ["as"; "break"; "const"; "continue"; "crate"; "else"; "enum"; "extern"; "false"; "fn"; "for"; "if"; "impl"; "in"; "let"; "loop"; "match"; "mod"; "move"; "mut"; "pub"; "ref";
   "return"; "self"; "Self"; "static"; "struct"; "super"; "trait"; "true"; "type"; "unsafe"; "use"; "where"; "while"; "async"; "await"; "dyn";
   "abstract"; "become"; "box"; "do"; "final"; "gen"; "macro"; "override"; "priv"; "typeof"; "unsized"; "virtual"; "yield"; "try"; "_"; ""].
Definition word (s : string) : Prop := ~ In s keywords.

(** [::a::b::c] *)
Inductive a_path : list tt -> list tt -> Prop :=
| ap_more : forall s a b c r r', word s -> a_path r r' -> a_path (TPunct ":" a :: TPunct ":" b :: TIdent s c :: r) r'
| ap_one : forall s a b c r, word s -> a_path (TPunct ":" a :: TPunct ":" b :: TIdent s c :: r) r.

Inductive an_expr : list tt -> list tt -> Prop :=
| ge_lit : forall l a r, an_expr (TLit l a :: r) r
| ge_name : forall s a r, word s -> an_expr (TIdent s a :: r) r
| ge_path : forall ts r, a_path ts r -> an_expr ts r
(** [m!(..)]: any tokens *)
| ge_name_macro : forall s a b any c r, word s -> an_expr (TIdent s a :: TPunct "!" b :: TGroup Parenth any c :: r) r
| ge_path_macro : forall ts b any c r, a_path ts (TPunct "!" b :: TGroup Parenth any c :: r) -> an_expr ts r
(** [f(x, y)], [[x, y]], [S { a: x, b: y, }] *)
| ge_call : forall ts args c r, a_path ts (TGroup Parenth args c :: r) -> some_args args -> an_expr ts r
| ge_array : forall args c r, some_args args -> an_expr (TGroup Bracket args c :: r) r
| ge_struct : forall ts fs c r, a_path ts (TGroup Brace fs c :: r) -> some_fields fs -> an_expr ts r
with some_args : list tt -> Prop :=
| ga_none : some_args []
| ga_last : forall ts, an_expr ts [] -> some_args ts
| ga_more : forall ts a r, an_expr ts (TPunct "," a :: r) -> some_args r -> some_args ts
with some_fields : list tt -> Prop :=
| gf_none : some_fields []
| gf_more : forall s a b ts c r, word s -> an_expr ts (TPunct "," c :: r) -> some_fields r -> some_fields (TIdent s a :: TPunct ":" b :: ts).

(** [let x = e;], [e;], and a last [e] *)
Inductive some_stmts : list tt -> Prop :=
| gs_none : some_stmts []
| gs_last : forall ts, an_expr ts [] -> some_stmts ts
| gs_let : forall a s b c ts d r, word s -> an_expr ts (TPunct ";" d :: r) -> some_stmts r -> some_stmts (TIdent "let" a :: TIdent s b :: TPunct "=" c :: ts)
| gs_expr : forall ts d r, an_expr ts (TPunct ";" d :: r) -> some_stmts r -> some_stmts ts.

(** [|| { .. }] or [|x| { .. }] *)
Inductive a_closure : list tt -> Prop :=
| gc_none : forall a b ts c, some_stmts ts -> a_closure [TPunct "|" a; TPunct "|" b; TGroup Brace ts c]
| gc_one : forall a s b c ts d, word s -> some_stmts ts -> a_closure [TPunct "|" a; TIdent s b; TPunct "|" c; TGroup Brace ts d].

(** [.name(CLOSURE)] *)
Inductive a_call (name : string) : list tt -> Prop :=
| call_with : forall a b ts c, a_closure ts -> a_call name [TPunct "." a; TIdent name b; TGroup Parenth ts c].
