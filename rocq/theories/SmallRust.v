(** Specification: a small part of Rust, with a parser.

    The parser is an instance of the oracle [ev_parse] (the part of syn behind [parse_quote!]): names, paths, literals, calls, method calls (also with generic arguments), fields (also numbered ones), [.await], [?], indices, prefix and binary operators, ranges with both ends, assignments, [return], [break],
    [continue], blocks, [let] with types and [else], [if] and [if let], [match] with guards, loops, [unsafe], parentheses, tuples, arrays, closures, and closures with a block, which it does not look into.
    Of patterns (and the types after them) and the parameters of closures it asks only where they end.  Anything else it rejects.  *)
From Coq Require Import String Ascii Bool Arith List.
From Verif Require Import Base Tokens Method Paths Context Flavor Attrs Syntax GrammarSpec.
Import ListNotations.
Open Scope string_scope.
Open Scope list_scope.

(** * The trees *)
Definition name (x : string) (sp : span) : expr := EPath [] (mk_path false [mk_seg x [] sp]).
(** [::x] after a name *)
Record hop : Type := mk_hop { h_c1 : span; h_c2 : span; h_id : string; h_sp : span }.
Definition hop_toks (h : hop) : list tt := [TPunct ":" (h_c1 h); TPunct ":" (h_c2 h); TIdent (h_id h) (h_sp h)].
Definition hop_seg (h : hop) : seg := mk_seg (h_id h) [] (mk_seg_at (h_sp h) (Some (h_c1 h, h_c2 h))).
Definition far (x : string) (sp : span) (hs : list hop) : expr := EPath [] (mk_path false (mk_seg x [] sp :: map hop_seg hs)).
(** what ends a statement without a semicolon *)
Definition blocky (e : expr) : bool :=
  match e with EBlock _ _ _ _ | EIf _ _ _ _ _ _ _ | EMatch _ _ _ _ _ | ELoop _ _ _ _ | EWhile _ _ _ _ _ | EForLoop _ _ _ _ _ | EUnsafe _ _ _ _ => true | _ => false end.
Definition block_words : list string := ["if"; "match"; "loop"; "while"; "for"; "unsafe"].
Definition starts_block (ts : list tt) : bool :=
  match ts with TIdent x _ :: _ => existsb (String.eqb x) block_words | TGroup Brace _ _ :: _ => true | _ => false end.
(** a variable *)
Definition root (x : string) : Prop := word x \/ x = "self".
(** where a path starts *)
Definition path_words : list string := ["self"; "Self"; "crate"; "super"].
Definition first (x : string) : Prop := word x \/ In x path_words.
Definition hops (hs : list hop) : Prop := Forall (fun h => word (h_id h)) hs.
(** patterns, and types after them: what contains neither [=] nor [;] nor [in], [if], [else] and [as], except in brackets; what comes first is no separator *)
Definition pat_tok (t : tt) : bool :=
  match t with
  | TIdent x _ => negb (existsb (String.eqb x) ["in"; "if"; "else"; "as"])
  | TPunct c _ => negb (existsb (Ascii.eqb c) ["="; ";"]%char)
  | _ => true
  end.
Definition starts_pat (t : tt) : bool := match t with TPunct c _ => negb (existsb (Ascii.eqb c) [","; "?"; "."]%char) | _ => true end.
Definition pat (pt : list tt) : Prop := match pt with [] => False | t :: _ => starts_pat t = true /\ forallb pat_tok pt = true end.
(** the parameters of a closure: what contains neither [|] nor [as] *)
Definition param_tok (t : tt) : bool := match t with TIdent x _ => negb (String.eqb x "as") | TPunct c _ => negb (Ascii.eqb c "|") | _ => true end.
Definition params (ps : list tt) : Prop := forallb param_tok ps = true.
(** the number of a field *)
Definition digit (c : ascii) : bool := Nat.leb 48 (nat_of_ascii c) && Nat.leb (nat_of_ascii c) 57.
Fixpoint digits (s : string) : bool := match s with EmptyString => true | String c r => digit c && digits r end.
Definition numeral (l : lit) : bool := match l with LOther s => negb (String.eqb s "") && digits s | _ => false end.
(** generic arguments, [d] brackets deep; no [->] and no [as] *)
Fixpoint inside (d : nat) (ts : list tt) : bool :=
  match ts with
  | [] => Nat.eqb d 0
  | TPunct c _ :: r =>
      if Ascii.eqb c "<" then inside (S d) r
      else if Ascii.eqb c ">" then match d with 0 => false | S d => inside d r end
      else negb (Ascii.eqb c "-") && inside d r
  | TIdent x _ :: r => negb (String.eqb x "as") && inside d r
  | _ :: r => inside d r
  end.
Definition generics (ts : list tt) : Prop := inside 0 ts = true.
(** [::<..>] *)
Definition fish (a b l : span) (ts : list tt) (r : span) : list tt := TPunct ":" a :: TPunct ":" b :: TPunct "<" l :: ts ++ [TPunct ">" r].
(** ranges with both ends *)
Definition ranges : list string := [".."; "..="].
(** binary operators other than [=] *)
Definition operators : list string :=
  ["+"; "-"; "*"; "/"; "%"; "^"; "&"; "|"; "<"; ">"; "&&"; "||"; "<<"; ">>"; "=="; "!="; "<="; ">="; "+="; "-="; "*="; "/="; "%="; "^="; "&="; "|="; "<<="; ">>="].
(** the operator that tokens spell *)
Fixpoint spell (o : list tt) : option string :=
  match o with [] => Some "" | TPunct c _ :: r => option_map (String c) (spell r) | _ => None end.
Definition prefixes : list ascii := ["*"; "!"; "-"]%char.
Definition an_arm (pt : list tt) (i : list tt) (gd : option expr) (q g : span) (e : expr) (comma : list tt) : arm := Arm [] pt i gd [TPunct "=" q; TPunct ">" g] e comma.
Definition is_ref (e : expr) : bool := match e with EReference _ _ _ => true | _ => false end.
(** how tightly an operator binds; 0 is for assignments *)
Definition levels : list (string * nat) :=
  [("*", 10); ("/", 10); ("%", 10); ("+", 9); ("-", 9); ("<<", 8); (">>", 8); ("&", 7); ("^", 6); ("|", 5); ("==", 4); ("!=", 4); ("<", 4); (">", 4); ("<=", 4); (">=", 4); ("&&", 3); ("||", 2); ("..", 1); ("..=", 1)].
Definition level (o : list tt) : nat := match spell o with Some s => match find (fun p => String.eqb s (fst p)) levels with Some p => snd p | None => 0 end | None => 0 end.
Definition tight : nat := 11.
Definition lvl (e : expr) : nat := match e with EBinary _ _ o _ | ERange _ _ o _ | EAssign _ _ o _ => level o | _ => tight end.
(** what may stand before an operator: what binds tighter, or as tight if the operator is neither a comparison nor a range; only an operand before an assignment *)
Definition left_ok (a k : nat) : bool := match k with 0 => Nat.eqb a tight | _ => Nat.ltb k a || Nat.eqb k a && negb (existsb (Nat.eqb k) [1; 4]) end.
(** the first operand *)
Fixpoint lead (e : expr) : expr := match e with EBinary _ l _ _ | ERange _ (Some l) _ _ | EAssign _ l _ _ => lead l | _ => e end.
Definition top (e : expr) : nat * bool := (lvl e, is_ref (lead e)).
Section Trees.
  Variable cl : bool.   (* with closures *)
  (** expressions that can be followed by [?] or a method call *)
  Inductive post : expr -> Prop :=
  | p_name : forall x sp, root x -> post (name x sp)
  | p_far : forall x sp h hs, first x -> hops (h :: hs) -> post (far x sp (h :: hs))
  | p_lit : forall l sp, post (ELit [] l sp)
  | p_unit : forall sp, post (ETuple [] sp [] [])
  | p_paren : forall sp e, full e -> post (EParen [] sp e)
  | p_tuple : forall sp es cs, args es cs -> cs <> [] -> post (ETuple [] sp es cs)
  | p_array : forall sp es cs, args es cs -> post (EArray [] sp es cs)
  | p_call : forall x sp0 sp es cs, word x -> args es cs -> post (ECall [] (name x sp0) sp es cs)
  | p_call_far : forall x sp0 h hs sp es cs, first x -> hops (h :: hs) -> args es cs -> post (ECall [] (far x sp0 (h :: hs)) sp es cs)
  | p_method : forall e a m b sp es cs, post e -> word m -> args es cs -> post (EMethodCall [] e [TPunct "." a; TIdent m b] sp es cs)
  | p_turbo : forall e a m b c d l ts r sp es cs, post e -> word m -> generics ts -> args es cs -> post (EMethodCall [] e (TPunct "." a :: TIdent m b :: fish c d l ts r) sp es cs)
  | p_field : forall e a m b, post e -> word m -> post (EField [] e [TPunct "." a; TIdent m b])
  | p_nth : forall e a n b, post e -> numeral n = true -> post (EField [] e [TPunct "." a; TLit n b])
  | p_await : forall e a b, post e -> post (EAwait [] e [TPunct "." a; TIdent "await" b])
  | p_try : forall e sp, post e -> post (ETry [] e sp)
  | p_index : forall e sp i, post e -> starts_block (etoks e) = false -> full i -> post (EIndex [] e sp i)
  | p_block : forall sp b, block b -> post (EBlock [] [] sp b)
  | p_unsafe : forall a sp b, block b -> post (EUnsafe [] [TIdent "unsafe" a] sp b)
  | p_if : forall a c sp b, cond c -> block b -> post (EIf [] [TIdent "if" a] c sp b [] None)
  | p_else : forall a c sp b d el, cond c -> block b -> post el -> blocky el = true -> post (EIf [] [TIdent "if" a] c sp b [TIdent "else" d] (Some el))
  | p_match : forall a e sp ms, oper e -> arms ms -> post (EMatch [] [TIdent "match" a] e sp ms)
  | p_loop : forall a sp b, block b -> post (ELoop [] [TIdent "loop" a] sp b)
  | p_while : forall a c sp b, cond c -> block b -> post (EWhile [] [TIdent "while" a] c sp b)
  | p_for : forall a pt i e sp b, pat pt -> oper e -> block b -> post (EForLoop [] (TIdent "for" a :: pt ++ [TIdent "in" i]) e sp b)
  (** with one of [&], [&mut], [*], [!] and [-] before them *)
  with un : expr -> Prop :=
  | u_post : forall e, post e -> un e
  | u_ref : forall a e, post e -> un (EReference [] [TPunct "&" a] e)
  | u_mut : forall a b e, post e -> un (EReference [] [TPunct "&" a; TIdent "mut" b] e)
  | u_op : forall c a e, In c prefixes -> post e -> un (EUnary [] [TPunct c a] e)
  (** operators within operators, as tightly as they bind; [a & &b] would be read as [a && b] *)
  with oper : expr -> Prop :=
  | o_un : forall e, un e -> oper e
  | o_binary : forall l o s r, oper l -> starts_block (etoks l) = false -> spell o = Some s -> In s operators -> left_ok (lvl l) (level o) = true -> oper r -> level o < lvl r -> (s = "&" -> is_ref (lead r) = false) ->
      oper (EBinary [] l o r)
  | o_range : forall l o s r, oper l -> starts_block (etoks l) = false -> spell o = Some s -> In s ranges -> left_ok (lvl l) (level o) = true -> oper r -> level o < lvl r -> oper (ERange [] (Some l) o (Some r))
  | o_assign : forall l a r, un l -> starts_block (etoks l) = false -> oper r -> 0 < lvl r -> oper (EAssign [] l [TPunct "=" a] r)
  (** what [if] and [while] ask *)
  with cond : expr -> Prop :=
  | c_oper : forall e, oper e -> cond e
  | c_let : forall a pt q e, pat pt -> un e -> cond (ELet [] (TIdent "let" a :: pt ++ [TPunct "=" q]) e)
  with full : expr -> Prop :=
  | f_oper : forall e, oper e -> full e
  | f_return : forall sp e, post e -> full (EReturn [] sp (Some e))
  | f_return_none : forall sp, full (EReturn [] sp None)
  | f_break : forall sp, full (EBreak [] [TIdent "break" sp] None)
  | f_break_some : forall sp e, post e -> full (EBreak [] [TIdent "break" sp] (Some e))
  | f_continue : forall sp, full (EContinue [] [TIdent "continue" sp])
  | f_closure : forall a b ts sp, cl = true -> full (EClosure [] [TPunct "|" a; TPunct "|" b] RetNone (EVerbatim [TGroup Brace ts sp]))
  | f_closure_1 : forall a x s b ts sp, cl = true -> word x -> full (EClosure [] [TPunct "|" a; TIdent x s; TPunct "|" b] RetNone (EVerbatim [TGroup Brace ts sp]))
  | f_lambda : forall a ps b e, params ps -> post e -> starts_block (etoks e) = false -> full (EClosure [] (TPunct "|" a :: ps ++ [TPunct "|" b]) RetNone e)
  (** arguments and their commas *)
  with args : list expr -> list tt -> Prop :=
  | a_none : args [] []
  | a_last : forall e, full e -> args [e] []
  | a_more : forall e sp es cs, full e -> args es cs -> args (e :: es) (TPunct "," sp :: cs)
  with arms : list arm -> Prop :=
  | m_none : arms []
  | m_last : forall pt i gd q g e, pat pt -> guard i gd -> full e -> arms [an_arm pt i gd q g e []]
  | m_comma : forall pt i gd q g e c ms, pat pt -> guard i gd -> full e -> arms ms -> arms (an_arm pt i gd q g e [TPunct "," c] :: ms)
  | m_blocky : forall pt i gd q g e ms, pat pt -> guard i gd -> post e -> blocky e = true -> arms ms -> arms (an_arm pt i gd q g e [] :: ms)
  with guard : list tt -> option expr -> Prop :=
  | g_none : guard [] None
  | g_if : forall a e, oper e -> guard [TIdent "if" a] (Some e)
  with block : list stmt -> Prop :=
  | b_none : block []
  | b_last : forall e, full e -> block [SExpr e None]
  | b_let : forall a pt c e d b, pat pt -> full e -> block b -> block (SLocalInit [] (TIdent "let" a :: pt ++ [TPunct "=" c]) e [] None [TPunct ";" d] :: b)
  | b_local : forall a pt d b, pat pt -> block b -> block (SLocal [] (TIdent "let" a :: pt) [TPunct ";" d] :: b)
  | b_let_else : forall a pt c e k sp eb d b, pat pt -> post e -> starts_block (etoks e) = false -> block eb -> block b ->
      block (SLocalInit [] (TIdent "let" a :: pt ++ [TPunct "=" c]) e [TIdent "else" k] (Some (EBlock [] [] sp eb)) [TPunct ";" d] :: b)
  | b_semi : forall e sp b, full e -> block b -> block (SExpr e (Some sp) :: b)
  | b_blocky : forall e b, post e -> blocky e = true -> block b -> block (SExpr e None :: b).
End Trees.
Definition is_post (e : expr) : bool :=
  match e with
  | EReturn _ _ _ | EClosure _ _ _ _ | EReference _ _ _ | EUnary _ _ _ | EBinary _ _ _ _ | ERange _ _ _ _ | EAssign _ _ _ _ | ELet _ _ _ | EBreak _ _ _ | EContinue _ _ => false
  | _ => true
  end.
(** the body of a function: a call can follow its last expression *)
Definition body (cl : bool) (b : list stmt) : Prop := block cl b /\ forall b0 e, b = b0 ++ [SExpr e None] -> is_post e = true.

(** * The parser *)
Definition parser : Type := list tt -> option (expr * list tt).
Definition is_word (x : string) : bool := if in_dec string_dec x keywords then false else true.

(** the longest operator; [=>] is none *)
Definition infixes : list string := ".." :: "..=" :: operators.
Definition is_op (s : string) : bool := existsb (String.eqb s) ("=" :: infixes).
Definition arrow (a b : ascii) : bool := Ascii.eqb a "=" && Ascii.eqb b ">".
Definition read_op (ts : list tt) : option (list tt * list tt) :=
  match ts with
  | TPunct a x :: ts1 =>
      let one := if is_op (String a "") then Some ([TPunct a x], ts1) else None in
      match ts1 with
      | TPunct b y :: ts2 =>
          let two := if is_op (String a (String b "")) then Some ([TPunct a x; TPunct b y], ts2) else if arrow a b then None else one in
          match ts2 with
          | TPunct c z :: ts3 => if is_op (String a (String b (String c ""))) then Some ([TPunct a x; TPunct b y; TPunct c z], ts3) else two
          | _ => two
          end
      | _ => one
      end
  | _ => None
  end.
Fixpoint take (p : tt -> bool) (ts : list tt) : list tt * list tt :=
  match ts with t :: r => if p t then let (a, b) := take p r in (t :: a, b) else ([], ts) | [] => ([], []) end.
Definition read_pat (ts : list tt) : option (list tt * list tt) :=
  match take pat_tok ts with (t :: pt, r) => if starts_pat t then Some (t :: pt, r) else None | _ => None end.

Fixpoint read_hops (ts : list tt) : list hop * list tt :=
  match ts with
  | TPunct c a :: TPunct d b :: TIdent x sp :: r =>
      if Ascii.eqb c ":" && Ascii.eqb d ":" && is_word x then let (hs, r) := read_hops r in (mk_hop a b x sp :: hs, r) else ([], ts)
  | _ => ([], ts)
  end.

(** goes on after the [>] that ends generic arguments; [acc] is what was read *)
Definition through {A} (next : list tt -> span -> list tt -> option A) : nat -> list tt -> list tt -> option A :=
  fix go d acc ts :=
    match ts with
    | [] => None
    | TPunct c sp :: r =>
        if Ascii.eqb c "<" then go (S d) (TPunct c sp :: acc) r
        else if Ascii.eqb c ">" then match d with 0 => next (rev acc) sp r | S d => go d (TPunct c sp :: acc) r end
        else if Ascii.eqb c "-" then None else go d (TPunct c sp :: acc) r
    | TIdent x sp :: r => if String.eqb x "as" then None else go d (TIdent x sp :: acc) r
    | t :: r => go d (t :: acc) r
    end.

Section Step.
  Variables pe pa : parser.   (* for what is inside: expressions, and expressions without the [?] and calls of methods that follow *)

  (** [e, e, e] and a last comma *)
  Fixpoint read_args (k : nat) (ts : list tt) : option (list expr * list tt) :=
    match k, ts with
    | 0, _ => None
    | _, [] => Some ([], [])
    | S k, _ =>
        match pe ts with
        | Some (e, []) => Some ([e], [])
        | Some (e, TPunct c sp :: r) =>
            if Ascii.eqb c "," then match read_args k r with Some (es, cs) => Some (e :: es, TPunct c sp :: cs) | None => None end else None
        | _ => None
        end
    end.
  Definition arguments (ts : list tt) : option (list expr * list tt) := read_args (S (List.length ts)) ts.
  (** what follows an expression: [?], [.x], [.0], [.m(..)], [.m::<..>(..)], [.await], [[i]] *)
  Fixpoint read_post (ts : list tt) (e : expr) : option (expr * list tt) :=
    match ts with
    | TPunct c sp :: r =>
        if Ascii.eqb c "?" then read_post r (ETry [] e sp)
        else if Ascii.eqb c "." then
          match r with
          | TIdent m b :: r1 =>
              if String.eqb m "await" then read_post r1 (EAwait [] e [TPunct c sp; TIdent m b])
              else if is_word m then
                match r1 with
                | TGroup Parenth args sp2 :: r2 => match arguments args with Some (es, cs) => read_post r2 (EMethodCall [] e [TPunct c sp; TIdent m b] sp2 es cs) | None => None end
                | TPunct d q :: r2 =>
                    if Ascii.eqb d ":" then
                      match r2 with
                      | TPunct d2 q2 :: TPunct l q3 :: r3 =>
                          if Ascii.eqb d2 ":" && Ascii.eqb l "<" then
                            through (fun g z r4 =>
                              match r4 with
                              | TGroup Parenth args sp2 :: r5 =>
                                  match arguments args with Some (es, cs) => read_post r5 (EMethodCall [] e (TPunct c sp :: TIdent m b :: fish q q2 q3 g z) sp2 es cs) | None => None end
                              | _ => None
                              end) 0 [] r3
                          else None
                      | _ => None
                      end
                    else read_post r1 (EField [] e [TPunct c sp; TIdent m b])
                | _ => read_post r1 (EField [] e [TPunct c sp; TIdent m b])
                end
              else None
          | TLit n b :: r1 => if numeral n then read_post r1 (EField [] e [TPunct c sp; TLit n b]) else None
          | TPunct d _ :: _ => if Ascii.eqb d "." then Some (e, ts) else None
          | _ => None
          end
        else Some (e, ts)
    | TGroup Bracket i sp :: r =>
        if starts_block (etoks e) then Some (e, ts) else match pe i with Some (x, []) => read_post r (EIndex [] e sp x) | _ => None end
    | _ => Some (e, ts)
    end.
  Definition post_step (ts : list tt) : option (expr * list tt) := match pa ts with Some (e, r) => read_post r e | None => None end.
  Definition un_step (ts : list tt) : option (expr * list tt) :=
    match ts with
    | TPunct c a :: r =>
        if Ascii.eqb c "&" then
          match r with
          | TIdent m b :: r1 =>
              if String.eqb m "mut" then match post_step r1 with Some (e, r) => Some (EReference [] [TPunct c a; TIdent m b] e, r) | None => None end
              else match post_step r with Some (e, r) => Some (EReference [] [TPunct c a] e, r) | None => None end
          | _ => match post_step r with Some (e, r) => Some (EReference [] [TPunct c a] e, r) | None => None end
          end
        else if existsb (Ascii.eqb c) prefixes then match post_step r with Some (e, r) => Some (EUnary [] [TPunct c a] e, r) | None => None end
        else None
    | _ => post_step ts
    end.
  Definition binary (l : expr) (o : list tt) (r : expr) : expr :=
    match o with
    | [TPunct c _] => if Ascii.eqb c "=" then EAssign [] l o r else EBinary [] l o r
    | TPunct c _ :: _ => if Ascii.eqb c "." then ERange [] (Some l) o (Some r) else EBinary [] l o r
    | _ => EBinary [] l o r
    end.
  (** [e], and an operator with its operand after it *)
  Fixpoint graft (e : expr) (o : list tt) (u : expr) : option expr :=
    if left_ok (lvl e) (level o) then if starts_block (etoks e) then None else Some (binary e o u)
    else if Nat.ltb (lvl e) (level o) then
      match e with
      | EBinary a l q r => option_map (EBinary a l q) (graft r o u)
      | ERange a l q (Some r) => option_map (fun r => ERange a l q (Some r)) (graft r o u)
      | EAssign a l q r => option_map (EAssign a l q) (graft r o u)
      | _ => None
      end
    else None.
  Fixpoint read_more (k : nat) (ts : list tt) (e : expr) : option (expr * list tt) :=
    match k with
    | 0 => None
    | S k =>
        match read_op ts with
        | Some (o, r) => match un_step r with Some (u, r) => match graft e o u with Some e => read_more k r e | None => None end | None => None end
        | None => Some (e, ts)
        end
    end.
  Definition oper_step (ts : list tt) : option (expr * list tt) :=
    match un_step ts with
    | Some (l, r) =>
        if starts_block ts then Some (l, r)
        else read_more (S (List.length r)) r l
    | None => None
    end.
  Definition cond_step (ts : list tt) : option (expr * list tt) :=
    match ts with
    | TIdent x a :: r =>
        if String.eqb x "let" then
          match read_pat r with
          | Some (pt, TPunct c q :: r) => if Ascii.eqb c "=" then match un_step r with Some (e, r) => Some (ELet [] (TIdent x a :: pt ++ [TPunct c q]) e, r) | None => None end else None
          | _ => None
          end
        else oper_step ts
    | _ => oper_step ts
    end.
  (** where an expression that starts with a block ends with it, unless [?] or [.] follows *)
  (** a second dot: a range *)
  Definition dot (r : list tt) : bool := match r with TPunct d _ :: _ => Ascii.eqb d "." | _ => false end.
  Definition goes_on (r : list tt) : bool := match r with TPunct c _ :: r => Ascii.eqb c "?" || Ascii.eqb c "." && negb (dot r) | _ => false end.
  Definition early (ts : list tt) : option (expr * list tt) :=
    if starts_block ts then match pa ts with Some (e, r) => if goes_on r then read_post r e else Some (e, r) | None => None end
    else pe ts.
  (** [;], or [else { .. };] *)
  Definition starts_brace (ts : list tt) : bool := match ts with TGroup Brace _ _ :: _ => true | _ => false end.
  Definition let_ends (rest : list tt -> option (list stmt)) (hd : list tt) (e : expr) (r : list tt) : option (list stmt) :=
    match r with
    | TPunct d sp :: r => if Ascii.eqb d ";" then option_map (cons (SLocalInit [] hd e [] None [TPunct d sp])) (rest r) else None
    | TIdent x k :: r =>
        if String.eqb x "else" && is_post e && negb (starts_block (etoks e)) && starts_brace r then
          match pa r with
          | Some (el, TPunct d sp :: r) => if Ascii.eqb d ";" then option_map (cons (SLocalInit [] hd e [TIdent x k] (Some el) [TPunct d sp])) (rest r) else None
          | _ => None
          end
        else None
    | _ => None
    end.
  Definition let_step (rest : list tt -> option (list stmt)) (a : span) (ts : list tt) : option (list stmt) :=
    match read_pat ts with
    | Some (pt, TPunct c sp :: r) =>
        if Ascii.eqb c "=" then match pe r with Some (e, r) => let_ends rest (TIdent "let" a :: pt ++ [TPunct c sp]) e r | None => None end
        else if Ascii.eqb c ";" then option_map (cons (SLocal [] (TIdent "let" a :: pt) [TPunct c sp])) (rest r)
        else None
    | _ => None
    end.
  (** [e;], or [e] at the end, or [e] that ends without a semicolon *)
  Definition ends (rest : list tt -> option (list stmt)) (e : expr) (r : list tt) : option (list stmt) :=
    let bare := if blocky e then option_map (cons (SExpr e None)) (rest r) else None in
    match r with
    | [] => Some [SExpr e None]
    | TPunct c sp :: r' => if Ascii.eqb c ";" then option_map (cons (SExpr e (Some sp))) (rest r') else bare
    | _ => bare
    end.
  Definition expr_stmt_step (rest : list tt -> option (list stmt)) (ts : list tt) : option (list stmt) := match early ts with Some (e, r) => ends rest e r | None => None end.
  Fixpoint read_stmts (k : nat) (ts : list tt) : option (list stmt) :=
    match k, ts with
    | 0, _ => None
    | _, [] => Some []
    | S k, TIdent x a :: r => if String.eqb x "let" then let_step (read_stmts k) a r else expr_stmt_step (read_stmts k) ts
    | S k, _ => expr_stmt_step (read_stmts k) ts
    end.
  Definition statements (ts : list tt) : option (list stmt) := read_stmts (S (List.length ts)) ts.
  Definition arm_ends (rest : list tt -> option (list arm)) (pt i : list tt) (gd : option expr) (q g : span) (e : expr) (r : list tt) : option (list arm) :=
    let bare := if blocky e then option_map (cons (an_arm pt i gd q g e [])) (rest r) else None in
    match r with
    | [] => Some [an_arm pt i gd q g e []]
    | TPunct c sp :: r' => if Ascii.eqb c "," then option_map (cons (an_arm pt i gd q g e [TPunct c sp])) (rest r') else bare
    | _ => bare
    end.
  Definition read_guard (ts : list tt) : option (list tt * option expr * list tt) :=
    match ts with
    | TIdent x a :: r => if String.eqb x "if" then match oper_step r with Some (e, r) => Some ([TIdent x a], Some e, r) | None => None end else Some ([], None, ts)
    | _ => Some ([], None, ts)
    end.
  Definition arm_step (rest : list tt -> option (list arm)) (pt i : list tt) (gd : option expr) (ts : list tt) : option (list arm) :=
    match ts with
    | TPunct c q :: TPunct d g :: r => if arrow c d then match early r with Some (e, r) => arm_ends rest pt i gd q g e r | None => None end else None
    | _ => None
    end.
  Fixpoint read_arms (k : nat) (ts : list tt) : option (list arm) :=
    match k, ts with
    | 0, _ => None
    | _, [] => Some []
    | S k, _ =>
        match read_pat ts with
        | Some (pt, r) => match read_guard r with Some (i, gd, r) => arm_step (read_arms k) pt i gd r | None => None end
        | _ => None
        end
    end.
  Definition match_arms (ts : list tt) : option (list arm) := read_arms (S (List.length ts)) ts.

  Definition else_step (a : span) (c : expr) (sp : span) (b : list stmt) (r : list tt) : option (expr * list tt) :=
    let no_else := Some (EIf [] [TIdent "if" a] c sp b [] None, r) in
    match r with
    | TIdent x d :: r =>
        if String.eqb x "else" then
          if starts_block r then match pa r with Some (el, r) => Some (EIf [] [TIdent "if" a] c sp b [TIdent "else" d] (Some el), r) | None => None end else None
        else no_else
    | _ => no_else
    end.
  Definition if_step (a : span) (ts : list tt) : option (expr * list tt) :=
    match cond_step ts with
    | Some (c, TGroup Brace b sp :: r) => match statements b with Some b => else_step a c sp b r | None => None end
    | _ => None
    end.
  Definition while_step (a : span) (ts : list tt) : option (expr * list tt) :=
    match cond_step ts with
    | Some (c, TGroup Brace b sp :: r) => match statements b with Some b => Some (EWhile [] [TIdent "while" a] c sp b, r) | None => None end
    | _ => None
    end.
  Definition match_step (a : span) (ts : list tt) : option (expr * list tt) :=
    match oper_step ts with
    | Some (e, TGroup Brace b sp :: r) => match match_arms b with Some ms => Some (EMatch [] [TIdent "match" a] e sp ms, r) | None => None end
    | _ => None
    end.
  Definition for_step (a : span) (ts : list tt) : option (expr * list tt) :=
    match read_pat ts with
    | Some (pt, TIdent x i :: r) =>
        if String.eqb x "in" then
          match oper_step r with
          | Some (e, TGroup Brace b sp :: r) => match statements b with Some b => Some (EForLoop [] (TIdent "for" a :: pt ++ [TIdent x i]) e sp b, r) | None => None end
          | _ => None
          end
        else None
    | _ => None
    end.
  Definition braces (ts : list tt) : option (list stmt * span * list tt) :=
    match ts with TGroup Brace b sp :: r => match statements b with Some b => Some (b, sp, r) | None => None end | _ => None end.
  Definition paren (sp : span) (es : list expr) (cs : list tt) : expr := match es, cs with [e], [] => EParen [] sp e | _, _ => ETuple [] sp es cs end.
  Definition atom_step (ts : list tt) : option (expr * list tt) :=
    match ts with
    | TIdent x a :: r =>
        if String.eqb x "if" then if_step a r
        else if String.eqb x "match" then match_step a r
        else if String.eqb x "while" then while_step a r
        else if String.eqb x "for" then for_step a r
        else if String.eqb x "loop" then match braces r with Some (b, sp, r) => Some (ELoop [] [TIdent x a] sp b, r) | None => None end
        else if String.eqb x "unsafe" then match braces r with Some (b, sp, r) => Some (EUnsafe [] [TIdent x a] sp b, r) | None => None end
        else if is_word x || existsb (String.eqb x) path_words then
          match read_hops r with
          | ([], r) =>
              if is_word x then
                match r with
                | TGroup Parenth ts sp :: r => match arguments ts with Some (es, cs) => Some (ECall [] (name x a) sp es cs, r) | None => None end
                | _ => Some (name x a, r)
                end
              else if String.eqb x "self" then Some (name x a, r)
              else None
          | (hs, r) =>
              match r with
              | TGroup Parenth ts sp :: r => match arguments ts with Some (es, cs) => Some (ECall [] (far x a hs) sp es cs, r) | None => None end
              | _ => Some (far x a hs, r)
              end
          end
        else None
    | TLit l sp :: r => Some (ELit [] l sp, r)
    | TGroup Parenth ts sp :: r => match arguments ts with Some (es, cs) => Some (paren sp es cs, r) | None => None end
    | TGroup Bracket ts sp :: r => match arguments ts with Some (es, cs) => Some (EArray [] sp es cs, r) | None => None end
    | TGroup Brace ts sp :: r => match statements ts with Some b => Some (EBlock [] [] sp b, r) | None => None end
    | _ => None
    end.
  Definition closure_step (a : span) (ts : list tt) : option (expr * list tt) :=
    match take param_tok ts with
    | (ps, TPunct d b :: TGroup Brace ts sp :: r) =>
        if Ascii.eqb d "|" && match ps with [] => true | [TIdent x _] => is_word x | _ => false end
        then Some (EClosure [] (TPunct "|" a :: ps ++ [TPunct d b]) RetNone (EVerbatim [TGroup Brace ts sp]), r) else None
    | (ps, TPunct d b :: r) =>
        if Ascii.eqb d "|" && negb (starts_block r) then
          match post_step r with Some (e, r) => Some (EClosure [] (TPunct "|" a :: ps ++ [TPunct d b]) RetNone e, r) | None => None end
        else None
    | _ => None
    end.
  (** [return] and [break], with or without a value *)
  Definition return_step (mk : option expr -> expr) (r : list tt) : option (expr * list tt) :=
    match r with
    | [] | TPunct _ _ :: _ => Some (mk None, r)
    | _ => match post_step r with Some (e, r) => Some (mk (Some e), r) | None => None end
    end.
  Definition expr_step (ts : list tt) : option (expr * list tt) :=
    match ts with
    | TPunct c a :: r => if Ascii.eqb c "|" then closure_step a r else oper_step ts
    | TIdent x sp :: r =>
        if String.eqb x "return" then return_step (EReturn [] sp) r
        else if String.eqb x "break" then return_step (EBreak [] [TIdent x sp]) r
        else if String.eqb x "continue" then Some (EContinue [] [TIdent x sp], r)
        else oper_step ts
    | _ => oper_step ts
    end.
End Step.
(** [n] bounds the depth *)
Fixpoint read_atom (n : nat) (ts : list tt) {struct n} : option (expr * list tt) := match n with 0 => None | S n => atom_step (read_expr n) (read_atom n) ts end
with read_expr (n : nat) (ts : list tt) {struct n} : option (expr * list tt) := match n with 0 => None | S n => expr_step (read_expr n) (read_atom n) ts end.
Fixpoint tt_size (t : tt) : nat := match t with TGroup _ ts _ => S (list_sum (map tt_size ts)) | _ => 1 end.
Definition size (ts : list tt) : nat := list_sum (map tt_size ts).
Definition rust_parse (ts : list tt) : option expr := match read_expr (S (2 * size ts)) ts with Some (e, []) => Some e | _ => None end.
