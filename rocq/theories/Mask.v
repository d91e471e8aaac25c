(** The helper of the snapshot tests (test-helpers/src/lib.rs): the root of the project in recorded expansions is replaced by a
    placeholder and back. *)
From Coq Require Import String Ascii Bool Arith List.
From Verif Require Import Base Io.
Import ListNotations.
Open Scope string_scope.
Open Scope list_scope.
Open Scope io_scope.

(** [str::strip_prefix] *)
Fixpoint strip (p s : string) : option string :=
  match p, s with
  | EmptyString, _ => Some s
  | String a p', String b s' => if Ascii.eqb a b then strip p' s' else None
  | _, EmptyString => None
  end.

(** [str::replace]: occurrences from the left, without overlap.  [fuel] bounds the number of steps.  The empty
    pattern, which matches between any two characters, is not modelled: the text is left as it is. *)
Fixpoint replace_fuel (fuel : nat) (from to s : string) : string :=
  match fuel with
  | O => s
  | S f =>
    match strip from s with
    | Some r => (to ++ replace_fuel f from to r)%string
    | None => match s with
              | EmptyString => EmptyString
              | String c r => String c (replace_fuel f from to r)
              end
    end
  end.
Definition replace (from to s : string) : string :=
  match from with EmptyString => s | _ => replace_fuel (String.length s) from to s end.

(** lib.rs 6-9 *)
Inductive mask_mode := Mask | UnMask.

(** lib.rs 31 *)
Definition placeholder := "<hooq_root>".

(** lib.rs 30-33 *)
Definition processed (root : string) (m : mask_mode) (content : string) : string :=
  match m with
  | Mask => replace root placeholder content
  | UnMask => replace placeholder root content
  end.

Section Mask.
  Variable X : outside.
  Variable glob : string -> list (option string).   (* the entries that match a pattern; none: one that cannot be read *)
  Variable root : string.                           (* CARGO_MANIFEST_DIR *)

  (** lib.rs 15-36; its panics are the [Stop]s of [read] and [write] *)
  Definition mask_project_root (target : string) (m : mask_mode) : io unit :=
    each (glob (target ++ "/*.expanded.rs")) (fun entry =>
      match entry with
      | None => ret tt
      | Some path => let! content := read path in write X path (processed root m content)
      end).
End Mask.
