(** Shared definitions: results, string maps, the counter monad.  *)
From Coq Require Import String Ascii Bool Arith List.
Import ListNotations.
Open Scope string_scope.
Open Scope list_scope.

(** Errors reported through [syn::Error] / [String] in the code.  Messages are replaced by a tag plus the
    data that the message embeds (simplification: wording and spans of errors are not modelled). *)
Inductive err : Type :=
| ErrAttrPath                               (* inert_attr/parse.rs 29-34: hooq::a::b *)
| ErrAttrFormat                             (* inert_attr/parse.rs 363, 370 *)
| ErrFlavorValue (setting : string)         (* inert_attr/parse.rs 107-112 *)
| ErrFlavorName                             (* flavor_path.rs 28-30, 56-58 *)
| ErrFlavorGeneric                          (* flavor_path.rs 22-24 *)
| ErrTomlLoad (msg : string)                (* inert_attr/parse.rs 118, root_attr/mod.rs 64 *)
| ErrFlavorNotFound (path : list string) (names : list string)   (* flavor/mod.rs 170-183 *)
| ErrHookTargets (name : string)            (* inert_attr/parse.rs 212-218, apply.rs 97-102 *)
| ErrParse (what : string)                  (* a syn parser rejected the tokens *)
| ErrIgnoreAssign                           (* inert_attr/parse.rs 277-282 *)
| ErrBindingFormat                          (* inert_attr/parse.rs 341-344 *)
| ErrDollar                                 (* render/mod.rs 103, 128, 144-147 *)
| ErrNoSoFar                                (* render/mod.rs 283-286 *)
| ErrUnknownVar (name : string) (bindings metas : list string)   (* render/mod.rs 320-339 *)
| ErrEmptyFlavorName                        (* apply.rs 55-57 *)
| ErrOverrideEmpty                          (* apply.rs 61-63 *)
| ErrRootFormat                             (* root_attr/parse.rs 92, 118-121 *)
| ErrExcerptLine                            (* source_excerpt.rs 155-160 *)
| ErrOption (name : string)                 (* source_excerpt_macros.rs 79-154 *)
| ErrReadFile | ErrParseToml                (* flavor/mod.rs 109-113 *).

(** Outcome of a computation: a value, a reported error, or a panic of the macro. *)
Inductive res (A : Type) : Type :=
| Ok (a : A)
| Err (e : err)
| Panic (m : string).
Arguments Ok {A}. Arguments Err {A}. Arguments Panic {A}.

Definition bindR {A B} (x : res A) (f : A -> res B) : res B :=
  match x with Ok a => f a | Err e => Err e | Panic m => Panic m end.

(** [iter().map(f).collect::<Result<Vec<_>, _>>()]: stops at the first error. *)
Definition mapR {A B} (f : A -> res B) : list A -> res (list B) :=
  fix go l := match l with
  | [] => Ok []
  | x :: r => bindR (f x) (fun y => bindR (go r) (fun ys => Ok (y :: ys)))
  end.

(** [HashMap<String, A>] as an association list.  Only look-up and the set of entries are observable;
    statements about iteration quantify over permutations. *)
Definition smap (A : Type) := list (string * A).

Fixpoint mget {A} (k : string) (m : smap A) : option A :=
  match m with
  | [] => None
  | (k', v) :: r => if String.eqb k k' then Some v else mget k r
  end.

(** [HashMap::insert]: overwrites in place or adds. *)
Fixpoint minsert {A} (k : string) (v : A) (m : smap A) : smap A :=
  match m with
  | [] => [(k, v)]
  | (k', v') :: r => if String.eqb k k' then (k, v) :: r else (k', v') :: minsert k v r
  end.

(** [HashMap::extend] *)
Definition mextend {A} (m : smap A) (l : list (string * A)) : smap A :=
  fold_left (fun m kv => minsert (fst kv) (snd kv) m) l m.

Definition keys {A} (m : smap A) : list string := map fst m.

(** [slice::contains] on strings *)
Definition str_in (s : string) (l : list string) : bool := existsb (String.eqb s) l.

(** Counter of hook targets (context.rs 32-63). *)
Inductive kind : Type := Question | Return | TailExpr.       (* context.rs 15-20 *)

Definition kind_eqb (a b : kind) : bool :=
  match a, b with
  | Question, Question | Return, Return | TailExpr, TailExpr => true
  | _, _ => false
  end.

(** context.rs 22-30, [Display for HookTargetKind] *)
Definition kind_str (k : kind) : string :=
  match k with Question => "?" | Return => "return" | TailExpr => "tail expr" end.

(** context.rs 33-37 ([usize] is modelled by [nat]; overflow of the counter is not modelled) *)
Record counter : Type := mk_counter { c_question : nat; c_return : nat; c_tail : nat }.

(** context.rs 40-46 *)
Definition counter0 : counter := mk_counter 0 0 0.

(** context.rs 48-54 *)
Definition count_up (k : kind) (c : counter) : counter :=
  match k with
  | Question => mk_counter (S (c_question c)) (c_return c) (c_tail c)
  | Return => mk_counter (c_question c) (S (c_return c)) (c_tail c)
  | TailExpr => mk_counter (c_question c) (c_return c) (S (c_tail c))
  end.

(** context.rs 56-62 *)
Definition get_count (k : kind) (c : counter) : nat :=
  match k with Question => c_question c | Return => c_return c | TailExpr => c_tail c end.

(** Computations with the counter shared by [Rc<RefCell<Counter>>] (context.rs 188). *)
Definition M (A : Type) := counter -> res (A * counter).
Definition ret {A} (a : A) : M A := fun c => Ok (a, c).
Definition bind {A B} (x : M A) (f : A -> M B) : M B :=
  fun c => match x c with
           | Ok (a, c') => f a c'
           | Err e => Err e
           | Panic m => Panic m
           end.
Definition lift {A} (x : res A) : M A :=
  fun c => match x with Ok a => Ok (a, c) | Err e => Err e | Panic m => Panic m end.

Declare Scope monad_scope.
Notation "x <- a ; b" := (bind a (fun x => b)) (at level 61, a at next level, right associativity) : monad_scope.
Notation "' p <- a ; b" := (bind a (fun p => b)) (at level 61, p pattern, a at next level, right associativity) : monad_scope.
Open Scope monad_scope.

(** [iter_mut().map(f).collect::<syn::Result<Vec<()>>>()] *)
Definition mapM {A B} (f : A -> M B) : list A -> M (list B) :=
  fix go l := match l with
  | [] => ret []
  | x :: r => y <- f x; ys <- go r; ret (y :: ys)
  end.

(** the same with [enumerate()] *)
Definition mapiM {A B} (f : nat -> A -> M B) : nat -> list A -> M (list B) :=
  fix go i l := match l with
  | [] => ret []
  | x :: r => y <- f i x; ys <- go (S i) r; ret (y :: ys)
  end.

(** [if let Some(x) = opt { f(x)? }] *)
Definition optM {A B} (f : A -> M B) (o : option A) : M (option B) :=
  match o with None => ret None | Some x => y <- f x; ret (Some y) end.
