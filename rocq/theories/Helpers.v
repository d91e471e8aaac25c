(** The helper types (hooq-helpers/src/lib.rs).  *)
From Coq Require Import String Ascii Bool Arith List.
From Verif Require Import Base.
Import ListNotations.
Open Scope string_scope.
Open Scope list_scope.

(** [Rc<dyn Any>]: the [TypeId] of the value and the value; both abstract numbers here. *)
Record dyn : Type := mk_dyn { dyn_type : nat; dyn_val : nat }.
(** lib.rs 17-20 *)
Record payload : Type := mk_payload { pl_expr : string; pl_value : dyn }.
(** lib.rs 33-41 *)
Record meta_value : Type := mk_meta_value {
  hm_line : nat; hm_column : nat; hm_path : string; hm_file : string;
  hm_source_str : string; hm_count : string; hm_bindings : smap payload }.

(** [Rc::<dyn Any>::downcast::<T>]: succeeds exactly when the type is [T] *)
Definition downcast (T : nat) (d : dyn) : option nat :=
  if Nat.eqb T (dyn_type d) then Some (dyn_val d) else None.

(** lib.rs 44-51 *)
Definition meta_get_binding (T : nat) (m : meta_value) (key : string) : option nat :=
  match mget key (hm_bindings m) with
  | Some b => downcast T (pl_value b)
  | None => None
  end.

(** [HashMap::from([...])] of the code generated at method/render/mod.rs 206-210: later entries overwrite *)
Definition hashmap_from {A} (l : list (string * A)) : smap A := mextend [] l.
