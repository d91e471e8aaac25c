(** Specification of the presets, after the table of docs/en/hooq-mdbook-en/src/reference/flavors.md.  *)
From Coq Require Import String Ascii Bool Arith List.
From Verif Require Import Base Tokens Method Paths Flavor.
Import ListNotations.
Open Scope string_scope.
Open Scope list_scope.

Definition levels : list string := ["error"; "warn"; "info"; "debug"; "trace"].
(** the presets there are, by feature *)
Inductive listed (ft : features) : list string -> Prop :=
| li_always : forall n, In n ["default"; "empty"; "hook"] -> listed ft [n]
| li_anyhow : ft_anyhow ft = true -> listed ft ["anyhow"]
| li_eyre : forall n, ft_eyre ft = true -> In n ["eyre"; "color_eyre"] -> listed ft [n]
| li_log : ft_log ft = true -> listed ft ["log"]
| li_log_level : forall l, ft_log ft = true -> In l levels -> listed ft ["log"; l]
| li_tracing : ft_tracing ft = true -> listed ft ["tracing"]
| li_tracing_level : forall l, ft_tracing ft = true -> In l levels -> listed ft ["tracing"; l].

(** the traits a preset imports *)
Definition preset_imports (p : list string) : list (list string) :=
  match p with
  | ["anyhow"] => [["anyhow"; "Context"]]
  | ["eyre"] => [["eyre"; "ContextCompat"]; ["eyre"; "WrapErr"]]
  | ["color_eyre"] => [["color_eyre"; "eyre"; "ContextCompat"]; ["color_eyre"; "eyre"; "WrapErr"]]
  | _ => []
  end.
(** the method a preset calls on the target *)
Definition preset_call (p : list string) : string :=
  match p with
  | ["hook"] => "hook"
  | ["anyhow"] => "with_context"
  | ["eyre"] | ["color_eyre"] => "wrap_err_with"
  | _ => "inspect_err"
  end.
(** the value of [$level] *)
Definition upper (c : ascii) : ascii := let n := nat_of_ascii c in if ((97 <=? n) && (n <=? 122))%nat then ascii_of_nat (n - 32) else c.
Fixpoint all_upper (s : string) : string := match s with EmptyString => EmptyString | String c r => String (upper c) (all_upper r) end.
Definition first_upper (s : string) : string := match s with EmptyString => EmptyString | String c r => String (upper c) r end.
Definition preset_level (p : list string) : option (list string) :=
  match p with
  | ["log"] => Some ["log"; "Level"; "Error"]
  | ["log"; l] => Some ["log"; "Level"; first_upper l]
  | ["tracing"] => Some ["tracing"; "Level"; "ERROR"]
  | ["tracing"; l] => Some ["tracing"; "Level"; all_upper l]
  | _ => None
  end.

(** the absolute paths [::a::b::c] in tokens, at any depth *)
Fixpoint path_from (fuel : nat) (ts : list tt) : list string :=
  match fuel, ts with
  | S k, TPunct ":" _ :: TPunct ":" _ :: TIdent n _ :: r => n :: path_from k r
  | _, _ => []
  end.
Definition after_name (prev : option tt) : bool := match prev with Some (TIdent _ _) => true | _ => false end.
Fixpoint abs_paths (t : tt) : list (list string) :=
  match t with
  | TGroup _ ts _ =>
      (fix go (prev : option tt) (l : list tt) : list (list string) :=
         match l with
         | [] => []
         | x :: r =>
             match x with
             | TPunct ":" _ => (if after_name prev then [] else match path_from (length l) l with [] => [] | p => [p] end) ++ go (Some x) r
             | _ => abs_paths x ++ go (Some x) r
             end
         end) None ts
  | _ => []
  end.
Definition abs_paths_of (ts : list tt) : list (list string) := abs_paths (TGroup NoDelim ts call_site).
