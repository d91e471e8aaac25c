(** Specification of what a method written as tokens is, independent of the parser in Method.v.  *)
From Coq Require Import String Ascii Bool Arith List.
From Verif Require Import Base Tokens Method.
Import ListNotations.
Open Scope string_scope.
Open Scope list_scope.

Definition ends_bang (ts : list tt) : Prop := exists l sp, ts = l ++ [TPunct "!" sp].
Definition starts_dot (ts : list tt) : Prop := exists sp r, ts = TPunct "." sp :: r.
(** a [!] at the end is only looked at with the feature consume-question *)
Inductive strip (consume : bool) : list tt -> list tt -> bool -> Prop :=
| sp_bang : forall l sp, consume = true -> strip consume (l ++ [TPunct "!" sp]) l true
| sp_none : forall l, consume = false \/ ~ ends_bang l -> strip consume l l false.
(** insertion mode iff it starts with a dot *)
Inductive method_of (consume : bool) : list tt -> method -> Prop :=
| mo_insert : forall dot ts body exc, strip consume ts body exc -> method_of consume (TPunct "." dot :: ts) (Insert dot body exc)
| mo_replace : forall ts body exc, ~ starts_dot ts -> strip consume ts body exc -> method_of consume ts (Replace body exc).
