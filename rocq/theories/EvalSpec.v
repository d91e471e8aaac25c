(** Specification of macro arguments read as Rust code, independent of the loop in EvalList.v.  *)
From Coq Require Import String Ascii Bool Arith Lia List.
From Verif Require Import Base Tokens Method Paths Context Syntax EvalList.
Import ListNotations.
Open Scope string_scope.
Open Scope list_scope.

(** a piece ends where the tokens end or at a comma or semicolon, which belongs to the piece *)
Definition separator (t : tt) : Prop := exists sp, t = TPunct "," sp \/ t = TPunct ";" sp.
Inductive ends_at : list tt -> list tt -> list tt -> Prop :=      (* rest after the parser, the punctuation, rest after it *)
| ea_end : ends_at [] [] []
| ea_sep : forall t r, separator t -> ends_at (t :: r) [t] r.
Definition ended (rest : list tt) : Prop := exists p r, ends_at rest p r.
Section Listed.
  Variable ps : parsers.
  Definition file_at ts fa its rest := ps_file ps ts = Some ((fa, its), rest) /\ ended rest.
  Definition item_at ts i rest := ps_item ps ts = Some (i, rest) /\ ended rest.
  Definition expr_at ts e rest := ps_expr ps ts = Some (e, rest) /\ ended rest.
  Definition stmt_at ts s rest := ps_stmt ps ts = Some (s, rest) /\ ended rest.
  (** a file if possible, else an item, else an expression, else a statement *)
  Inductive piece : list tt -> list tt -> evaluable -> list tt -> Prop :=
  | pc_file : forall ts fa its rest p, file_at ts fa its rest -> piece ts p (VFile fa its p) rest
  | pc_item : forall ts i rest p, (forall fa its r, ~ file_at ts fa its r) -> item_at ts i rest -> piece ts p (VItem i p) rest
  | pc_expr : forall ts e rest p, (forall fa its r, ~ file_at ts fa its r) -> (forall i r, ~ item_at ts i r) -> expr_at ts e rest -> piece ts p (VExpr e p) rest
  | pc_stmt : forall ts s rest p, (forall fa its r, ~ file_at ts fa its r) -> (forall i r, ~ item_at ts i r) -> (forall e r, ~ expr_at ts e r) -> stmt_at ts s rest ->
      piece ts p (VStmt s p) rest.
  Inductive listed : list tt -> list evaluable -> Prop :=
  | ls_nil : listed [] []
  | ls_cons : forall ts v p rest rest' l, ts <> [] -> piece ts p v rest -> ends_at rest p rest' -> listed rest' l -> listed ts (v :: l).

  (** ** What is asked of the parsers *)
  (** they give back no more tokens than they got *)
  Definition shrinking : Prop :=
    (forall ts x rest, ps_file ps ts = Some (x, rest) -> length rest <= length ts) /\ (forall ts x rest, ps_item ps ts = Some (x, rest) -> length rest <= length ts) /\
    (forall ts x rest, ps_expr ps ts = Some (x, rest) -> length rest <= length ts) /\ (forall ts x rest, ps_stmt ps ts = Some (x, rest) -> length rest <= length ts).
  (** what they read, printed, is what they consumed *)
  Definition printing : Prop :=
    (forall ts fa its rest, ps_file ps ts = Some ((fa, its), rest) -> ts = inner_toks fa ++ flat_map itoks its ++ rest) /\
    (forall ts i rest, ps_item ps ts = Some (i, rest) -> ts = itoks i ++ rest) /\
    (forall ts e rest, ps_expr ps ts = Some (e, rest) -> ts = etoks e ++ rest) /\
    (forall ts s rest, ps_stmt ps ts = Some (s, rest) -> ts = stoks s ++ rest).
End Listed.

(** the tokens that were read as [v], inner attributes of a file included *)
Definition read_toks (v : evaluable) : list tt := match v with VFile fa _ _ => inner_toks fa ++ vtoks v | _ => vtoks v end.
(** no inner attributes at the start of the arguments *)
Definition no_inner (v : evaluable) : Prop := match v with VFile fa _ _ => inner_toks fa = [] | _ => True end.
