(** Specification: methods that can be called on every expression, and functions whose hooq attributes set only such methods.

    The template of a method is a chain of calls whose arguments are literals, names, paths, the expression, variables that are filled with one literal, and closures.  *)
From Coq Require Import String Ascii Bool Arith List.
From Verif Require Import Base Tokens Method Paths Context Flavor Attrs Syntax AttrSpec SiteSpec NodeSpec ProgSpec GrammarSpec SmallRust.
Import ListNotations.
Open Scope string_scope.
Open Scope list_scope.

(** the variables that stand for one literal *)
Definition literal_vars : list string := ["line"; "column"; "col"; "path"; "file"; "nth"; "count"; "fnname"; "fn_name"; "fnsig"; "fn_sig"].
(** the variables that always have a value; [$so_far] is not among them *)
Definition plain_vars : list string := literal_vars ++ ["expr"; "source"; "bindings"; "vars"; "hooqmeta"; "hooq_meta"].

Section Templates.
  Variable known : string -> Prop.   (* variables that have a value *)
  (** every [$] is followed by a known variable *)
  Inductive filled : list tt -> Prop :=
  | fi_nil : filled []
  | fi_var : forall a x b r, known x -> filled r -> filled (TPunct "$" a :: TIdent x b :: r)
  | fi_ident : forall x a r, filled r -> filled (TIdent x a :: r)
  | fi_lit : forall l a r, filled r -> filled (TLit l a :: r)
  | fi_punct : forall c a r, c <> "$"%char -> filled r -> filled (TPunct c a :: r)
  | fi_group : forall d l a r, filled l -> filled r -> filled (TGroup d l a :: r).
  (** one argument *)
  Inductive simple_arg : list tt -> Prop :=
  | sa_lit : forall l a, simple_arg [TLit l a]
  | sa_name : forall x a, root x -> simple_arg [TIdent x a]
  | sa_path : forall x a h hs, first x -> hops (h :: hs) -> simple_arg (TIdent x a :: flat_map hop_toks (h :: hs))
  | sa_var : forall a x b, In x literal_vars -> simple_arg [TPunct "$" a; TIdent x b]
  | sa_expr : forall a b, simple_arg [TPunct "$" a; TIdent "expr" b]
  | sa_closure : forall a b l c, filled l -> simple_arg [TPunct "|" a; TPunct "|" b; TGroup Brace l c]
  | sa_closure_1 : forall a x b c l d, word x -> filled l -> simple_arg [TPunct "|" a; TIdent x b; TPunct "|" c; TGroup Brace l d].
  Inductive simple_args : list tt -> Prop :=
  | sg_none : simple_args []
  | sg_last : forall t, simple_arg t -> simple_args t
  | sg_more : forall t a r, simple_arg t -> simple_args r -> simple_args (t ++ TPunct "," a :: r).
  (** [m(..)], [m(..).n(..)] and so on; if there is a method below also [$so_far], [m(..).$so_far.n(..)] *)
  Inductive simple_calls (over : bool) : list tt -> Prop :=
  | sc_last : forall m a ts b, word m -> simple_args ts -> simple_calls over [TIdent m a; TGroup Parenth ts b]
  | sc_more : forall m a ts b c r, word m -> simple_args ts -> simple_calls over r -> simple_calls over (TIdent m a :: TGroup Parenth ts b :: TPunct "." c :: r)
  | sc_so_far : forall a x b, over = true -> In x ["sofar"; "so_far"] -> simple_calls over [TPunct "$" a; TIdent x b]
  | sc_so_far_more : forall a x b c r, over = true -> In x ["sofar"; "so_far"] -> simple_calls over r -> simple_calls over (TPunct "$" a :: TIdent x b :: TPunct "." c :: r).
  (** the expression or a call of a function, with calls after it *)
  Inductive simple_whole : list tt -> Prop :=
  | sw_expr : forall a b, simple_whole [TPunct "$" a; TIdent "expr" b]
  | sw_call : forall f a ts b, word f -> simple_args ts -> simple_whole [TIdent f a; TGroup Parenth ts b]
  | sw_call_path : forall f a h hs ts b, first f -> hops (h :: hs) -> simple_args ts -> simple_whole (TIdent f a :: flat_map hop_toks (h :: hs) ++ [TGroup Parenth ts b])
  | sw_more : forall t a r, simple_whole t -> simple_calls false r -> simple_whole (t ++ TPunct "." a :: r).
  (** it is called on the expression or takes its place, with or without the [?] *)
  Definition simple_method (over : bool) (m : method) : Prop := match m with Insert _ ts _ => simple_calls false ts | Replace ts _ => simple_whole ts end.
  (** it is called on the expression, and may repeat what the method below does *)
  Definition stacked_method (over : bool) (m : method) : Prop := match m with Insert _ ts _ => simple_calls over ts | Replace _ _ => False end.
  (** a call of [nm] with one closure *)
  Definition observing (nm : string) (m : method) : Prop :=
    exists dot a b t, m = Insert dot [TIdent nm a; TGroup Parenth t b] false /\
      ((exists p q l r, t = [TPunct "|" p; TPunct "|" q; TGroup Brace l r] /\ filled l) \/
       (exists p x s q l r, t = [TPunct "|" p; TIdent x s; TPunct "|" q; TGroup Brace l r] /\ word x /\ filled l)).
  Definition observer_of (ms : list string) (over : bool) (m : method) : Prop := exists nm, In nm ms /\ observing nm m.
End Templates.

(** a flavor whose method needs no other bindings than those it has *)
Definition own_vars (f : fcore) (x : string) : Prop := In x plain_vars \/ In x (map fst (fl_bindings f)) /\ ~ In x ["sofar"; "so_far"].
Section Settings.
  Variable fit : (string -> Prop) -> bool -> method -> Prop.   (* the methods considered; [fit vs over m]: [m] is one, and needs only the variables [vs]; [over] says that there is one below *)
  Definition own_method (f : fcore) : Prop := fit (own_vars f) false (fl_method f).
  Variables (base : fcore) (env : attr_env).   (* the flavor at the root *)
  (** the variables a node has a value for: those of the flavor at the root and those bound by the attributes of the node and of what encloses it *)
  Definition binds_at (a : list attr) (x : string) : Prop := exists es, node_events env a es /\ In x (map fst (flat_map ev_binds es)) /\ ~ In x ["sofar"; "so_far"].
  Definition vars_at (n : node) (x : string) : Prop := own_vars base x \/ exists a, (a = n_attrs n \/ In (FAttrs a) (n_frames n)) /\ binds_at a x.
  Definition allowed (vs : string -> Prop) (e : event) : Prop :=
    match e with
    | EvFlavor f => fit vs false (fl_method f)
    | EvMethod m => fit vs true m
    | _ => True
    end.
  (** the attributes that are read set what is allowed; attributes that are not read are not hooq's *)
  Definition is_dead (f : frame) : bool := match f with FDead => true | _ => false end.
  Definition read_here (n : node) : bool := place_eqb (n_place n) PNode && negb (existsb is_dead (n_frames n)).
  Definition settled (it : item) : Prop := forall n, In n (item_nodes [] it) ->
    if read_here n then exists es, node_events env (n_attrs n) es /\ Forall (allowed (vars_at n)) es else foreign (n_attrs n) = n_attrs n.
End Settings.
