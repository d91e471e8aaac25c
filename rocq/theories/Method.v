(** Hook methods (method/mod.rs).  *)
From Coq Require Import String Ascii Bool Arith List.
From Verif Require Import Base Tokens.
Import ListNotations.
Open Scope string_scope.
Open Scope list_scope.

(** method/mod.rs 10-13: [Insert dot template exc] / [Replace template exc];
    the dot is kept as its span, the exclamation mark as its presence. *)
Inductive method : Type :=
| Insert (dot : span) (ts : list tt) (exc : bool)
| Replace (ts : list tt) (exc : bool).

(** render/mod.rs 289: the template of a method *)
Definition m_template (m : method) : list tt :=
  match m with Insert _ ts _ => ts | Replace ts _ => ts end.
Definition m_exc (m : method) : bool :=
  match m with Insert _ _ e => e | Replace _ e => e end.

(** method/mod.rs 60-76 *)
Definition split_tail_exclamation (ts : list tt) : list tt * bool :=
  let tokens := rev ts in
  match tokens with
  | TPunct "!" _ :: r => (rev r, true)
  | _ => (ts, false)
  end.

(** method/mod.rs 15-29 (feature off) and 31-49 (feature [consume-question] on). *)
Definition parse_method (consume : bool) (input : list tt) : method :=
  match input with
  | TPunct "." sp :: ts =>
      if consume
      then let '(ts, exc) := split_tail_exclamation ts in Insert sp ts exc
      else Insert sp ts false
  | _ =>
      if consume
      then let '(ts, exc) := split_tail_exclamation input in Replace ts exc
      else Replace input false
  end.
