(** Specification: the functions of a module, an impl block or a trait; items of the small part of Rust.  *)
From Coq Require Import String Ascii Bool Arith List.
From Verif Require Import Base Tokens Method Paths Context Flavor Attrs Syntax ProgSpec SmallRust.
Import ListNotations.
Open Scope string_scope.
Open Scope list_scope.

(** signature and body of each function, in order *)
Definition impl_functions (x : impl_item) : list (sig * list stmt) := match x with IIFn _ _ s _ b => [(s, b)] | _ => [] end.
Definition trait_functions (x : trait_item) : list (sig * list stmt) := match x with TIFn _ s _ b => [(s, b)] | _ => [] end.
Fixpoint functions (x : item) : list (sig * list stmt) :=
  match x with
  | IFn _ _ s _ b => [(s, b)]
  | IImpl _ _ _ its => flat_map impl_functions its
  | IMod _ _ _ its => flat_map functions its
  | ITrait _ _ _ its => flat_map trait_functions its
  | _ => []
  end.

(** functions whose bodies are [B], constants whose values are [X], items without expressions (imports, types, signatures), and modules, impl blocks and traits of these *)
Section Made.
  Variables (B : list stmt -> Prop) (X : expr -> Prop).
  Inductive impl_of : impl_item -> Prop :=
  | io_fn : forall a vis s sp b, B b -> impl_of (IIFn a vis s sp b)
  | io_const : forall a hd e semi, X e -> impl_of (IIConst a hd e semi)
  | io_other : forall a ts, impl_of (IIOther a ts).
  Inductive trait_of : trait_item -> Prop :=
  | to_fn : forall a s sp b, B b -> trait_of (TIFn a s sp b)
  | to_const : forall a hd e semi, X e -> trait_of (TIConst a hd e semi)
  | to_other : forall a ts, trait_of (TIOther a ts).
  Inductive made_of : item -> Prop :=
  | mo_fn : forall a vis s sp b, B b -> made_of (IFn a vis s sp b)
  | mo_const : forall a hd e semi, X e -> made_of (IConst a hd e semi)
  | mo_static : forall a hd e semi, X e -> made_of (IStatic a hd e semi)
  | mo_impl : forall a hd sp its, Forall impl_of its -> made_of (IImpl a hd sp its)
  | mo_mod : forall a hd sp its, Forall made_of its -> made_of (IMod a hd sp its)
  | mo_trait : forall a hd sp its, Forall trait_of its -> made_of (ITrait a hd sp its)
  | mo_other : forall a ts, made_of (IOther a ts).
End Made.

(** the small part of Rust; hooq attributes may stand anywhere in it *)
Definition small_body (b : list stmt) : Prop := body false (map stmt_bare b).
Definition small_value (e : expr) : Prop := full false (bare e).
Definition small_item : item -> Prop := made_of small_body small_value.
(** the same, and it is read back from its tokens as it is *)
Definition readable_body (b : list stmt) : Prop := block true b /\ forall sp, rust_parse [TGroup Brace (flat_map stoks b) sp] = Some (EBlock [] [] sp b).
Definition readable_value (e : expr) : Prop := full true e /\ rust_parse (etoks e) = Some e.
