(** Token trees ([proc_macro2::TokenTree]).  *)
From Coq Require Import String Ascii Bool Arith List.
From Verif Require Import Base.
Import ListNotations.
Open Scope string_scope.
Open Scope list_scope.

(** What the code reads of a [Span]: [file()], [line()], [column()] (render/mod.rs 15, 222, 229, 236). *)
Record span : Type := mk_span { sp_file : string; sp_line : nat; sp_col : nat }.

(** [Span::call_site()]: the position of the [#[hooq]] attribute; its value never matters below. *)
Definition call_site : span := mk_span "" 0 0.

Inductive delim : Type := Parenth | Brace | Bracket | NoDelim.

(** Literals: string literals, [usize] literals produced by [quote!] from a [usize], all others by their text. *)
Inductive lit : Type := LStr (s : string) | LUsize (n : nat) | LOther (s : string).

(** [TokenTree]; spacing of punctuation is not modelled, multi-character operators are several [TPunct]. *)
Inductive tt : Type :=
| TIdent (s : string) (sp : span)
| TPunct (c : ascii) (sp : span)
| TLit (l : lit) (sp : span)
| TGroup (d : delim) (ts : list tt) (sp : span).

Definition tt_span (t : tt) : span :=
  match t with TIdent _ s | TPunct _ s | TLit _ s | TGroup _ _ s => s end.

(** [TokenTree::set_span] *)
Definition set_span (sp : span) (t : tt) : tt :=
  match t with
  | TIdent s _ => TIdent s sp
  | TPunct c _ => TPunct c sp
  | TLit l _ => TLit l sp
  | TGroup d ts _ => TGroup d ts sp
  end.

(** [syn::spanned::Spanned::span] of a stream: where its first token starts (the join with the last token,
    available on nightly only, has the same start; only the start is ever read). *)
Definition ts_span (ts : list tt) : span :=
  match ts with [] => call_site | t :: _ => tt_span t end.

(** A token stream up to spans. *)
Fixpoint tt_nospan (t : tt) : tt :=
  match t with
  | TIdent s _ => TIdent s call_site
  | TPunct c _ => TPunct c call_site
  | TLit l _ => TLit l call_site
  | TGroup d ts _ => TGroup d (map tt_nospan ts) call_site
  end.
Definition nospan (ts : list tt) : list tt := map tt_nospan ts.

(** [quote!] helpers: tokens made by the macro itself get the call-site span. *)
Definition qi (s : string) : tt := TIdent s call_site.
Definition qp (c : ascii) : tt := TPunct c call_site.
Definition qs (s : string) : tt := TLit (LStr s) call_site.
(** a line break, written [\n] in Rust string literals *)
Definition newline : string := String "010" "".
Definition qg (d : delim) (ts : list tt) : tt := TGroup d ts call_site.
Definition qcc : list tt := [qp ":"; qp ":"].
(** a path written with a leading [::] in [quote!] *)
Fixpoint qpath (l : list string) : list tt :=
  match l with [] => [] | s :: r => qcc ++ qi s :: qpath r end.

(** Is the token a given punctuation character? *)
Definition is_punct (c : ascii) (t : tt) : bool :=
  match t with TPunct c' _ => Ascii.eqb c c' | _ => false end.
