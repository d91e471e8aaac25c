(** Specification of rendering: what a template stands for, stated as relations.  *)
From Coq Require Import String Ascii Bool Arith NArith Permutation Sorted List.
From Verif Require Import Base Tokens Method Paths Context Excerpt ExcerptSpec.
Import ListNotations.
Open Scope string_scope.
Open Scope list_scope.

(** ** Substitution (C14) *)
Definition is_dollar (t : tt) : Prop := exists sp, t = TPunct "$" sp.
Definition is_group (t : tt) : Prop := exists d ts sp, t = TGroup d ts sp.
(** [substs V ts out]: [out] is [ts] with every [$name] replaced by a value of [name], at every depth.  Delimiters get
    a new span. *)
Inductive substs (V : string -> list tt -> Prop) : list tt -> list tt -> Prop :=
| su_nil : substs V [] []
| su_var : forall name v a b r r', V name v -> substs V r r' ->
    substs V (TPunct "$" a :: TIdent name b :: r) (v ++ r')
| su_group : forall d ts ts' sp r r', substs V ts ts' -> substs V r r' ->
    substs V (TGroup d ts sp :: r) (TGroup d ts' call_site :: r')
| su_tok : forall t r r', ~ is_dollar t -> ~ is_group t -> substs V r r' -> substs V (t :: r) (t :: r').
(** The same, for templates in which a [$] may end a stream: such a [$] leaves nothing behind.  [substs] is what C14 asks
    for, [filled] is what happens; they agree on templates without such a [$]. *)
Inductive filled (V : string -> list tt -> Prop) : list tt -> list tt -> Prop :=
| fi_nil : filled V [] []
| fi_end : forall a, filled V [TPunct "$" a] []
| fi_var : forall name v a b r r', V name v -> filled V r r' ->
    filled V (TPunct "$" a :: TIdent name b :: r) (v ++ r')
| fi_group : forall d ts ts' sp r r', filled V ts ts' -> filled V r r' ->
    filled V (TGroup d ts sp :: r) (TGroup d ts' call_site :: r')
| fi_tok : forall t r r', ~ is_dollar t -> ~ is_group t -> filled V r r' -> filled V (t :: r) (t :: r').

(** ** Dollars (C15) *)
(** every [$] is followed by an identifier, at every depth *)
Inductive dollars_ok : list tt -> Prop :=
| dk_nil : dollars_ok []
| dk_var : forall name a b r, dollars_ok r -> dollars_ok (TPunct "$" a :: TIdent name b :: r)
| dk_group : forall d ts sp r, dollars_ok ts -> dollars_ok r -> dollars_ok (TGroup d ts sp :: r)
| dk_tok : forall t r, ~ is_dollar t -> ~ is_group t -> dollars_ok r -> dollars_ok (t :: r).
(** the same, but a [$] may also be the last token of its stream *)
Inductive dollars_weak : list tt -> Prop :=
| dw_nil : dollars_weak []
| dw_end : forall a, dollars_weak [TPunct "$" a]
| dw_var : forall name a b r, dollars_weak r -> dollars_weak (TPunct "$" a :: TIdent name b :: r)
| dw_group : forall d ts sp r, dollars_weak ts -> dollars_weak r -> dollars_weak (TGroup d ts sp :: r)
| dw_tok : forall t r, ~ is_dollar t -> ~ is_group t -> dollars_weak r -> dollars_weak (t :: r).

(** [name] occurs as [$name] somewhere in the template *)
Inductive uses (name : string) : list tt -> Prop :=
| us_here : forall a b r, uses name (TPunct "$" a :: TIdent name b :: r)
| us_in : forall d ts sp r, uses name ts -> uses name (TGroup d ts sp :: r)
| us_next : forall t r, uses name r -> uses name (t :: r).

(** ** Names (C16) *)
(** meta_vars.md: the variables and their aliases *)
Definition builtin : list string :=
  ["line"; "column"; "col"; "path"; "file"; "expr"; "source"; "count"; "nth"; "fn_name"; "fnname"; "fn_sig"; "fnsig";
   "so_far"; "sofar"; "bindings"; "vars"; "hooq_meta"; "hooqmeta"].
Definition is_so_far (name : string) : bool := str_in name ["so_far"; "sofar"].

(** bytewise order *)
Inductive str_le : string -> string -> Prop :=
| sle_nil : forall s, str_le "" s
| sle_lt : forall a b s t, (nat_of_ascii a < nat_of_ascii b)%nat -> str_le (String a s) (String b t)
| sle_eq : forall a s t, str_le s t -> str_le (String a s) (String a t).
(** [l] is the entries of [m], sorted by name *)
Definition sorted_entries {A} (m l : list (string * A)) : Prop :=
  Permutation m l /\ StronglySorted (fun x y => str_le (fst x) (fst y)) l.

(** ** [$so_far] (C09) *)
(** the overridden methods, the method itself first *)
Fixpoint chain {T} (f : field T) : list T :=
  match f with Field m anc => m :: match anc with Some a => chain a | None => [] end end.
(** what a stack of templates expands to: [$so_far] is the expansion of the rest of the stack *)
Fixpoint stack_exp (V : string -> list tt -> Prop) (templates : list (list tt)) : list tt -> Prop :=
  match templates with
  | [] => fun _ => False
  | t :: rest => filled (fun n v => (is_so_far n = true /\ stack_exp V rest v) \/ (is_so_far n = false /\ V n v)) t
  end.

(** ** Ordinals (C12) *)
Definition ends_with (s t : string) : Prop := exists p, s = (p ++ t)%string.
(** the decimal digits of [n] *)
Definition decimal (n : nat) (ds : string) : Prop :=
  Forall is_digit (chars ds) /\ digits_value (chars ds) = n /\ ds <> "" /\ (hd 48%N (chars ds) = 48%N -> String.length ds = 1).
Definition teen (ds : string) : Prop := ends_with ds "11" \/ ends_with ds "12" \/ ends_with ds "13".
(** English: 1st 2nd 3rd 4th ... 11th 12th 13th ... 21st ... 111th *)
Inductive english (ds : string) : string -> Prop :=
| en_teen : teen ds -> english ds "th"
| en_st : ~ teen ds -> ends_with ds "1" -> english ds "st"
| en_nd : ~ teen ds -> ends_with ds "2" -> english ds "nd"
| en_rd : ~ teen ds -> ends_with ds "3" -> english ds "rd"
| en_th : ~ ends_with ds "1" -> ~ ends_with ds "2" -> ~ ends_with ds "3" -> english ds "th".

(** ** Files (C45) *)
Fixpoint has_slash (s : string) : Prop :=
  match s with EmptyString => False | String c r => c = "/"%char \/ has_slash r end.
(** the last component of a path *)
Definition last_component (path file : string) : Prop :=
  ~ has_slash file /\ (path = file \/ exists dir, path = (dir ++ "/" ++ file)%string).

(** ** Readers for the generated code (C37) *)
(** the tokens of an absolute path *)
Fixpoint read_path (names : list string) (ts : list tt) : option (list tt) :=
  match names with
  | [] => Some ts
  | n :: r => match ts with
              | TPunct ":" _ :: TPunct ":" _ :: TIdent m _ :: ts' => if String.eqb n m then read_path r ts' else None
              | _ => None
              end
  end.
Definition read_punct (c : ascii) (ts : list tt) : option (list tt) :=
  match ts with TPunct d _ :: r => if Ascii.eqb c d then Some r else None | _ => None end.
Definition read_name (s : string) (ts : list tt) : option (list tt) :=
  match ts with TIdent d _ :: r => if String.eqb s d then Some r else None | _ => None end.
Definition read_group (d : delim) (ts : list tt) : option (list tt * list tt) :=
  match ts with
  | TGroup e ts' _ :: r =>
      match d, e with
      | Parenth, Parenth | Brace, Brace | Bracket, Bracket => Some (ts', r)
      | _, _ => None
      end
  | _ => None
  end.
(** [::std::string::ToString::to_string("...")] *)
Definition read_to_string (ts : list tt) : option (string * list tt) :=
  match read_path ["std"; "string"; "ToString"; "to_string"] ts with
  | Some r => match read_group Parenth r with
              | Some ([TLit (LStr s) _], r') => Some (s, r')
              | _ => None
              end
  | None => None
  end.
Notation "'do' x <- a ; b" := (match a with Some x => b | None => None end) (at level 200, x pattern, right associativity).
(** the block that makes a payload: the text and the value of the binding *)
Definition read_payload (ts : list tt) : option (string * list tt) :=
  do r <- read_name "let" ts; do r <- read_name "expr" r; do r <- read_punct "=" r;
  do (e, r) <- read_to_string r; do r <- read_punct ";" r;
  do r <- read_name "let" r; do r <- read_name "value" r; do r <- read_punct ":" r;
  do r <- read_path ["std"; "rc"; "Rc"] r; do r <- read_punct "<" r; do r <- read_name "dyn" r;
  do r <- read_path ["std"; "any"; "Any"] r; do r <- read_punct ">" r; do r <- read_punct "=" r;
  do r <- read_path ["std"; "rc"; "Rc"; "new"] r; do (v, r) <- read_group Parenth r; do r <- read_punct ";" r;
  do r <- read_path ["hooq"; "BindingPayload"] r; do (fs, r) <- read_group Brace r;
  match r with
  | [] => do f <- read_name "expr" fs; do f <- read_punct "," f; do f <- read_name "value" f; do f <- read_punct "," f;
          match f with [] => Some (e, v) | _ => None end
  | _ => None
  end.
(** one entry of the array: the name, the text and the value *)
Definition read_entry (ts : list tt) : option (string * string * list tt) :=
  do (k, r) <- read_to_string ts; do r <- read_punct "," r; do (b, r) <- read_group Brace r;
  match r with [] => do (e, v) <- read_payload b; Some (k, e, v) | _ => None end.
Fixpoint read_entries (ts : list tt) : option (list (string * string * list tt)) :=
  match ts with
  | [] => Some []
  | TGroup Parenth e _ :: r =>
      do x <- read_entry e;
      match r with
      | [] => Some [x]
      | TPunct "," _ :: r' => do l <- read_entries r'; match l with [] => None | _ => Some (x :: l) end
      | _ => None
      end
  | _ => None
  end.
(** [::std::collections::HashMap::from([...])] *)
Definition read_bindings (ts : list tt) : option (list (string * string * list tt)) :=
  do r <- read_path ["std"; "collections"; "HashMap"; "from"] ts; do (a, r) <- read_group Parenth r;
  do (l, a') <- read_group Bracket a;
  match r, a' with [], [] => read_entries l | _, _ => None end.

(** a struct literal: the tokens of every field, each ended by a comma *)
Fixpoint until_comma (ts acc : list tt) : option (list tt * list tt) :=
  match ts with
  | [] => None
  | TPunct "," _ :: r => Some (rev acc, r)
  | t :: r => until_comma r (t :: acc)
  end.
Fixpoint read_fields (names : list string) (ts : list tt) : option (list (list tt)) :=
  match names with
  | [] => match ts with [] => Some [] | _ => None end
  | n :: r => do ts <- read_name n ts; do ts <- read_punct ":" ts; do (v, ts) <- until_comma ts []; do vs <- read_fields r ts; Some (v :: vs)
  end.
Definition read_meta (ts : list tt) : option (list (list tt)) :=
  do r <- read_path ["hooq"; "HooqMeta"] ts; do (b, r) <- read_group Brace r;
  match r with [] => read_fields ["line"; "column"; "path"; "file"; "source_str"; "count"; "bindings"] b | _ => None end.

(** ** The meaning of the meta variables (meta_vars.md) *)
Definition str_lit (s : string) : list tt := [TLit (LStr s) call_site].
Definition num_lit (n : nat) : list tt := [TLit (LUsize n) call_site].
Definition kind_word (k : kind) : string := match k with Question => "?" | Return => "return" | TailExpr => "tail expr" end.
Section Values.
  Variable ts_str : list tt -> string.
  Variable c : ctx.
  Variable k : kind.
  Variable count : nat.
  Variable source ets : list tt.
  Variable q : span.
  Inductive value : string -> list tt -> Prop :=
  | v_line : value "line" (num_lit (sp_line q))
  | v_column : forall n, In n ["column"; "col"] -> value n (num_lit (sp_col q))
  | v_path : value "path" (str_lit (sp_file q))
  | v_file : forall f, last_component (sp_file q) f -> value "file" (str_lit f)
  | v_expr : value "expr" ets
  | v_source : value "source" source
  | v_count : forall n ds suf, In n ["count"; "nth"] -> decimal count ds -> english ds suf ->
      value n (str_lit (ds ++ suf ++ " " ++ kind_word k))
  | v_fn_name : forall n, In n ["fn_name"; "fnname"] ->
      value n (str_lit (match fval (cx_fn c) with
                        | Some (FnInfo s) => sg_name s | Some (ClosureInfo _ _ x) => x | None => "<unknown>" end))
  | v_fn_sig : forall n, In n ["fn_sig"; "fnsig"] ->
      value n (str_lit (match fval (cx_fn c) with
                        | Some (FnInfo s) => ts_str (sg_toks s) | Some (ClosureInfo _ x _) => ts_str x | None => "<unknown>" end))
  | v_bindings : forall n l ts, In n ["bindings"; "vars"] -> sorted_entries (fval (cx_bindings c)) l ->
      read_bindings ts = Some (map (fun b => (fst b, ts_str (snd b), snd b)) l) -> value n ts
  | v_meta : forall n ts line column path file cnt bs, In n ["hooq_meta"; "hooqmeta"] ->
      value "line" line -> value "column" column -> value "path" path -> value "file" file -> value "count" cnt -> value "bindings" bs ->
      read_meta ts = Some [line; column; path; file; str_lit (ts_str source); cnt; bs] -> value n ts
  | v_binding : forall n v, ~ In n builtin -> mget n (fval (cx_bindings c)) = Some v -> value n v.
End Values.
