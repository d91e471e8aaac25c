(** Model of hooq-macros/src/impls/utils/get_hooq_crate_name.rs.

    [proc_macro_crate::crate_name] reads Cargo.toml of the crate being compiled; it is an oracle here.  The [OnceLock]
    of lines 7 and 9 makes the first answer the only one, so the oracle is a function.  *)
From Coq Require Import String Ascii Bool Arith List.
From Verif Require Import Base.
Import ListNotations.
Open Scope string_scope.

(** [Result<FoundCrate, Error>] *)
Inductive found : Type := FoundItself | FoundName (n : string) | FoundNone.
(** [name.replace("-", "_")] *)
Fixpoint replace_dash (s : string) : string :=
  match s with
  | EmptyString => EmptyString
  | String c r => String (if Ascii.eqb c "-" then "_"%char else c) (replace_dash r)
  end.
(** lines 6-18 *)
Definition hooq_crate_name (crate_name : string -> found) : string :=
  let found_crate := match crate_name "hooq" with FoundNone => crate_name "hooq-macros" | x => x end in
  match found_crate with
  | FoundItself => "hooq"
  | FoundName n => replace_dash n
  | FoundNone => "hooq"
  end.
