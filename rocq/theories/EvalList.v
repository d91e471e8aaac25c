(** Reading macro arguments as Rust code (walker/walk_macro.rs 84-161).  *)
From Coq Require Import String Ascii Bool Arith List.
From Verif Require Import Base Tokens Method Paths Context Syntax.
Import ListNotations.
Open Scope string_scope.
Open Scope list_scope.

(** The parsers of [syn] used on a fork of the input: the value and the tokens that are left.
    [syn::File], [syn::Item], [syn::Expr], [syn::Stmt] (walk_macro.rs 99, 107, 115, 123); not modelled. *)
Record parsers : Type := mk_parsers {
  ps_file : list tt -> option ((list attr * list item) * list tt);
  ps_item : list tt -> option (item * list tt);
  ps_expr : list tt -> option (expr * list tt);
  ps_stmt : list tt -> option (stmt * list tt) }.

(** [forked.peek(Token![;]) || forked.peek(Token![,]) || forked.is_empty()] *)
Definition at_boundary (rest : list tt) : bool :=
  match rest with
  | [] => true
  | t :: _ => is_punct ";" t || is_punct "," t
  end.

(** a successful fork is kept only at a boundary *)
Definition keep {A} (o : option (A * list tt)) : option (A * list tt) :=
  match o with Some (x, rest) => if at_boundary rest then Some (x, rest) else None | None => None end.

(** walk_macro.rs 148-154: an optional comma or semicolon *)
Definition take_punct (rest : list tt) : list tt * list tt :=
  match rest with
  | t :: r => if is_punct "," t || is_punct ";" t then ([t], r) else ([], rest)
  | [] => ([], [])
  end.

Section EvalList.
  Variable ps : parsers.

  (** walk_macro.rs 96-135: file, then item, then expression, then statement; the punctuation is added by
      the caller *)
  Definition parse_evaluable (ts : list tt) : option ((list tt -> evaluable) * list tt) :=
    match keep (ps_file ps ts) with
    | Some ((fa, its), rest) => Some (VFile fa its, rest)
    | None =>
    match keep (ps_item ps ts) with
    | Some (i, rest) => Some (VItem i, rest)
    | None =>
    match keep (ps_expr ps ts) with
    | Some (e, rest) => Some (VExpr e, rest)
    | None =>
    match keep (ps_stmt ps ts) with
    | Some (s, rest) => Some (VStmt s, rest)
    | None => None
    end end end end.

  (** walk_macro.rs 140-161.  [fuel] bounds the number of turns; [None] means it ran out (the loop of the code
      would still be running), [Some None] that the input is not a list of evaluables. *)
  Fixpoint parse_list (fuel : nat) (ts : list tt) : option (option (list evaluable)) :=
    match ts with
    | [] => Some (Some [])
    | _ =>
        match fuel with
        | 0 => None
        | S fuel' =>
            match parse_evaluable ts with
            | None => Some None
            | Some (mk, rest) =>
                let '(p, rest') := take_punct rest in
                match parse_list fuel' rest' with
                | None => None
                | Some None => Some None
                | Some (Some l) => Some (Some (mk p :: l))
                end
            end
        end
    end.
End EvalList.
