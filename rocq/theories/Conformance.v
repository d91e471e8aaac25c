(** Tools for comparing the model with recorded expansions of the real macro (the [Recorded_*] files).

    A recording is the text of a file after `cargo expand`: the output of the macro in which rustc has also expanded the
    standard macros.  [std_toks] does those expansions on the output of the model; [flat] gives the texts of the tokens, without
    commas before closing delimiters (the recorder's formatter adds and removes those).  *)
From Coq Require Import String Ascii Bool Arith NArith DecimalString List.
From Verif Require Import Base Tokens Method Paths Context Flavor TomlStore Attrs Syntax Render Walker RootAttr Excerpt ExcerptArgs.
Import ListNotations.
Open Scope string_scope.
Open Scope list_scope.

(** ** Reading the generated programs *)
Definition at_ (f : string) (l c : N) : span := mk_span f (N.to_nat l) (N.to_nat c).
Definition I (S : N -> N -> span) (s : string) (l c : N) : tt := TIdent s (S l c).
Definition O (S : N -> N -> span) (s : ascii) (l c : N) : tt := TPunct s (S l c).
Arguments O _ _%char.
Definition L (S : N -> N -> span) (x : lit) (l c : N) : tt := TLit x (S l c).
Definition G (S : N -> N -> span) (d : delim) (ts : list tt) (l c : N) : tt := TGroup d ts (S l c).

(** ** Texts of tokens *)
(** string literals: quotes, backslashes, spaces, line breaks and tabs are written with a backslash *)
Fixpoint esc (s : string) : string :=
  match s with
  | EmptyString => ""
  | String c r =>
      (if Ascii.eqb c "\" then "\\" else if Ascii.eqb c """" then "\""" else if Ascii.eqb c " " then "\s"
       else if Ascii.eqb c "010" then "\n" else if Ascii.eqb c "009" then "\t" else if Ascii.eqb c "013" then "\r" else String c "") ++ esc r
  end%string.
Definition lit_text (l : lit) : string :=
  match l with LStr s => ("""" ++ esc s ++ """")%string | LUsize n => (dec n ++ "usize")%string | LOther s => s end.
Definition drop_comma (l : list string) : list string :=
  match rev l with "," :: r => rev r | _ => l end.
Fixpoint has_semi (ts : list tt) : bool := match ts with [] => false | t :: r => is_punct ";" t || has_semi r end.
(** [=>] among the tokens: match arms *)
Fixpoint has_arrow (ts : list tt) : bool :=
  match ts with a :: (b :: _) as r => (is_punct "=" a && is_punct ">" b) || has_arrow r | _ => false end.
(** the tokens of a list one after the other; [eq]: the token before is [=]; [body]: the tokens before are [|] or [=>].  Left out are
    braces around a closure body or a match arm without statements, and the commas between match arms. *)
Definition opens_body (eq : bool) (t : tt) : bool := is_punct "|" t || (eq && is_punct ">" t).
Fixpoint flat1 (body : bool) (t : tt) : list string :=
  match t with
  | TIdent s _ => [s]
  | TPunct c _ => [String c ""]
  | TLit l _ => [lit_text l]
  | TGroup d ts _ =>
      let arms := has_arrow ts in
      let inner := drop_comma ((fix go (eq body : bool) (l : list tt) : list string :=
                                  match l with
                                  | [] => []
                                  | t :: r => (if arms && is_punct "," t then [] else flat1 body t) ++ go (is_punct "=" t) (opens_body eq t) r
                                  end) false false ts) in
      match d with
      | Parenth => "(" :: inner ++ [")"]
      | Brace => if body && negb (has_semi ts) then inner else "{" :: inner ++ ["}"]
      | Bracket => "[" :: inner ++ ["]"]
      | NoDelim => inner
      end
  end.
(** no comma before [>] *)
Fixpoint no_last_comma (l : list string) : list string :=
  match l with
  | s :: r => if String.eqb s "," && match r with ">" :: _ => true | _ => false end then no_last_comma r else s :: no_last_comma r
  | [] => []
  end.
Fixpoint flat_seq (eq body : bool) (l : list tt) : list string :=
  match l with [] => [] | t :: r => flat1 body t ++ flat_seq (is_punct "=" t) (opens_body eq t) r end.
Definition flat (ts : list tt) : list string := no_last_comma (flat_seq false false ts).
Fixpoint words_aux (s cur : string) : list string :=
  match s with
  | EmptyString => match cur with "" => [] | _ => [cur] end
  | String c r => if Ascii.eqb c " " then (match cur with "" => [] | _ => [cur] end) ++ words_aux r "" else words_aux r (cur ++ String c "")
  end.
(** recorded tokens are written as lines of words *)
Definition words (l : list string) : list string := flat_map (fun s => words_aux s "") l.
Fixpoint unwords (l : list string) : string := match l with [] => "" | [s] => s | s :: r => (s ++ " " ++ unwords r)%string end.
Definition same_words (a b : list string) : bool := if list_eq_dec string_dec a b then true else false.

(** ** Standard macros *)

(** a format string with numbered arguments; [n] arguments are given, [caps] are the captured ones so far *)
Fixpoint index_of (s : string) (l : list string) (k : nat) : option nat :=
  match l with [] => None | x :: r => if String.eqb s x then Some k else index_of s r (S k) end.
Fixpoint upto (stop : ascii -> bool) (s : string) : string * string :=
  match s with
  | EmptyString => ("", "")
  | String c r => if stop c then ("", s) else let '(a, b) := upto stop r in (String c a, b)
  end.
Fixpoint canon (fuel : nat) (s : string) (next n : nat) (caps : list string) : string * list string :=
  match fuel, s with
  | 0, _ | _, EmptyString => ("", caps)
  | S f, String "{" (String "{" r) => let '(a, b) := canon f r next n caps in (("{{" ++ a)%string, b)
  | S f, String "}" (String "}" r) => let '(a, b) := canon f r next n caps in (("}}" ++ a)%string, b)
  | S f, String "{" r =>
      let '(arg, r1) := upto (fun c => Ascii.eqb c ":" || Ascii.eqb c "}") r in
      let '(spec, r2) := upto (fun c => Ascii.eqb c "}") r1 in
      let r3 := match r2 with String _ x => x | _ => "" end in
      match arg with
      | EmptyString => let '(a, b) := canon f r3 (S next) n caps in (("{" ++ dec next ++ spec ++ "}" ++ a)%string, b)
      | String c _ =>
          if (Nat.leb 48 (nat_of_ascii c) && Nat.leb (nat_of_ascii c) 57)%bool
          then let '(a, b) := canon f r3 next n caps in (("{" ++ arg ++ spec ++ "}" ++ a)%string, b)
          else match index_of arg caps 0 with
               | Some k => let '(a, b) := canon f r3 next n caps in (("{" ++ dec (n + k) ++ spec ++ "}" ++ a)%string, b)
               | None => let '(a, b) := canon f r3 next n (caps ++ [arg]) in (("{" ++ dec (n + length caps) ++ spec ++ "}" ++ a)%string, b)
               end
      end
  | S f, String c r => let '(a, b) := canon f r next n caps in (String c a, b)
  end.
(** the number of arguments after the format string *)
Fixpoint args_of (ts : list tt) (pending : bool) : nat :=
  match ts with
  | [] => if pending then 1 else 0
  | t :: r => if is_punct "," t then (if pending then 1 else 0) + args_of r false else args_of r true
  end.
Definition strip_comma (ts : list tt) : list tt := match rev ts with t :: r => if is_punct "," t then rev r else ts | [] => ts end.
Definition format_args (ln : string) (ts : list tt) : list tt :=
  match ts with
  | [] => [qi "format_args"; qp "!"; qg Parenth [qs ln]]
  | TLit (LStr s) _ :: r =>
      let r := strip_comma r in
      let '(s', caps) := canon (S (String.length s)) s 0 (args_of r false) [] in
      [qi "format_args"; qp "!"; qg Parenth (qs (s' ++ ln) :: r ++ flat_map (fun x => [qp ","; qi x]) caps)]
  | _ => ts
  end.
Fixpoint semi_comma (ts : list tt) : list tt := match ts with [] => [] | t :: r => (if is_punct ";" t then qp "," else t) :: semi_comma r end.

(** ** The excerpt macros, on tokens with positions *)
Definition ends := list (N * N * (N * N * string)).
Fixpoint end_at (tb : ends) (l c : N) : option (N * N * string) :=
  match tb with [] => None | (l', c', x) :: r => if N.eqb l l' && N.eqb c c' then Some x else end_at r l c end.
Definition unchars (t : text) : string := fold_right (fun c s => String (ascii_of_N c) s) "" t.
Section Excerpts.
  Variable tb : ends.
  Definition ends_of (s : span) : nat * nat * string :=
    match end_at tb (N.of_nat (sp_line s)) (N.of_nat (sp_col s)) with
    | Some (l, c, x) => (N.to_nat l, N.to_nat c, x)
    | None => (sp_line s, sp_col s, "")
    end.
  (** [lits]: string literals are reachable as such; [prev]: where the token before ends.  The syntax tree of the model does not keep
      the positions of [::] in paths and of the [!] of macro calls; they stand right behind the token before. *)
  Definition at_prev (p : span) (prev : nat * nat) : nat * nat := if Nat.eqb (sp_line p) 0 then prev else (sp_line p, sp_col p).
  Fixpoint placed (lits : bool) (prev : nat * nat) (t : tt) : ptt * (nat * nat) :=
    match t with
    | TIdent s p => let '(l, c) := at_prev p prev in let e := c + String.length s in (PLeaf (chars s) l c e, (l, e))
    | TPunct a p => let '(l, c) := at_prev p prev in (PLeaf [N_of_ascii a] l c (c + 1), (l, c + 1))
    | TLit (LStr v) p =>
        let '(l, c, x) := ends_of p in
        (if lits then PStr (chars v) (chars x) (sp_line p) (sp_col p) c else PLeaf (chars x) (sp_line p) (sp_col p) c, (l, c))
    | TLit x p => let s := lit_text x in let e := sp_col p + String.length s in (PLeaf (chars s) (sp_line p) (sp_col p) e, (sp_line p, e))
    | TGroup d ts p =>
        let '(l, c, _) := ends_of p in
        (PGroup d (sp_line p) (sp_col p)
          ((fix go (lits' : bool) (prev : nat * nat) (l : list tt) : list ptt :=
              match l with
              | [] => []
              | t :: r => let '(x, e) := placed (lits && lits') prev t in x :: go (negb (is_punct "!" t)) e r
              end) true (sp_line p, sp_col p + 1) ts) l c, (l, c))
    end.
  Fixpoint placed_seq (lits : bool) (prev : nat * nat) (l : list tt) : list ptt :=
    match l with [] => [] | t :: r => let '(x, e) := placed lits prev t in x :: placed_seq (negb (is_punct "!" t)) e r end.
  Definition first_line (ts : list tt) : nat := match ts with t :: _ => sp_line (tt_span t) | [] => 0 end.
  Definition last_line (ts : list tt) : nat :=
    match rev ts with TGroup _ _ p :: _ => fst (fst (ends_of p)) | t :: _ => sp_line (tt_span t) | [] => 0 end.
  Definition placed_expr (ts : list tt) : option pexpr := Some (mk_pexpr (placed_seq true (0, 0) ts) (first_line ts) (last_line ts)).
  Fixpoint rust_esc (t : text) : text :=
    match t with
    | [] => []
    | c :: r => (if N.eqb c 92 || N.eqb c 34 then [92%N; c] else if N.eqb c 10 then [92%N; 110%N] else [c]) ++ rust_esc r
    end.
  Definition quoted (t : text) : text := [34%N] ++ rust_esc t ++ [34%N].
  Definition excerpt (n : string) (ts : list tt) : option string :=
    match (if String.eqb n "pretty_stringify" then pretty_stringify placed_expr ts
           else if String.eqb n "one_line_stringify" then one_line_stringify quoted placed_expr ts
           else if String.eqb n "excerpted_pretty_stringify" || String.eqb n "summary" then excerpted_pretty_stringify quoted placed_expr ts
           else Err (ErrOption n)) with
    | Ok t => Some (unchars t)
    | _ => None
    end.
  (** without the line breaks around it (as snapshots are kept) *)
  Fixpoint skip_nl (t : text) : text := match t with c :: r => if N.eqb c nl then skip_nl r else t | [] => [] end.
  Definition snapshot (n : string) (ts : list tt) : option string :=
    match excerpt n ts with Some s => Some (unchars (rev (skip_nl (rev (skip_nl (chars s)))))) | None => None end.
End Excerpts.

Section Std.
  Variable tb : ends.
  Variable krate : string.                       (* the module, as [log!] prints it *)
  (** what [stringify!] and [TokenStream::to_string] print *)
  Variable str : list tt -> string.
  Definition print_toks (fn ln : string) (ts : list tt) : list tt := [qg Brace (qpath ["std"; "io"; fn] ++ [qg Parenth (format_args ln ts); qp ";"])].
  Definition known (n : string) (ts : list tt) : option (list tt) :=
    if String.eqb n "println" then Some (print_toks "_print" newline ts)
    else if String.eqb n "eprintln" then Some (print_toks "_eprint" newline ts)
    else if String.eqb n "format" then
      Some (qpath ["alloc"; "__export"; "must_use"] ++ [qg Parenth [qg Brace (qpath ["alloc"; "fmt"; "format"] ++ [qg Parenth (format_args "" ts)])]])
    else if String.eqb n "vec" then
      Some (if has_semi ts then qpath ["alloc"; "vec"; "from_elem"] ++ [qg Parenth (semi_comma ts)]
            else [qp "<"; qg Bracket [qi "_"]; qp ">"] ++ qpath ["into_vec"] ++ [qg Parenth (qpath ["alloc"; "boxed"; "box_new"] ++ [qg Parenth [qg Bracket ts]])])
    else if String.eqb n "eyre" then
      Some [qg Brace ([qi "let"; qi "error"; qp "="] ++ qpath ["eyre"; "private"; "format_err"] ++ [qg Parenth (format_args "" ts); qp ";"; qi "error"])]
    else if String.eqb n "anyhow" then
      Some (qpath ["anyhow"; "__private"; "must_use"] ++
            [qg Parenth [qg Brace ([qi "let"; qi "error"; qp "="] ++ qpath ["anyhow"; "__private"; "format_err"] ++ [qg Parenth (format_args "" ts); qp ";"; qi "error"])]])
    else if String.eqb n "log" then
      match ts with
      | lv :: c :: r =>
          let le := [qi "lvl"; qp "<"; qp "="] in
          let loc := qs krate in
          Some [qg Brace [qg Brace ([qi "let"; qi "lvl"; qp "="; lv; qp ";"; qi "if"] ++ le ++ qpath ["log"; "STATIC_MAX_LEVEL"] ++ [qp "&"; qp "&"] ++ le ++
                qpath ["log"; "max_level"] ++ [qg Parenth []; qg Brace (qpath ["log"; "__private_api"; "log"] ++
                  [qg Parenth (qg Brace (qpath ["log"; "__private_api"; "GlobalLogger"]) :: qp "," :: format_args "" r ++ [qp ","; qi "lvl"; qp ","; qp "&";
                     qg Parenth ([loc; qp ","; loc; qp ","] ++ qpath ["log"; "__private_api"; "loc"] ++ [qg Parenth []]); qp ","; qg Parenth []]); qp ";"])])]]
      | _ => None
      end
    else if String.eqb n "id" then Some ts                                                    (* tests/util_macros *)
    else if String.eqb n "empty" then Some []
    else None.
  Fixpoint std_toks (fuel : nat) (ts : list tt) : list tt :=
    match fuel with
    | 0 => ts
    | S f =>
        match ts with
        | [] => []
        | TIdent m sp :: TPunct "!" sp' :: TIdent n sp'' :: t :: r =>                        (* macro_rules! name { .. } *)
            TIdent m sp :: TPunct "!" sp' :: TIdent n sp'' :: (if String.eqb m "macro_rules" then t :: std_toks f r else std_toks f (t :: r))
        | TPunct "#" sp :: TGroup Bracket [TIdent "derive" si; TGroup Parenth [TIdent "Debug" sd] sg] sb :: TIdent "struct" ss :: TIdent n sn :: TPunct ";" se :: r =>
            TIdent "struct" ss :: TIdent n sn :: TPunct ";" se ::
            [qp "#"; qg Bracket [qi "automatically_derived"]; qi "impl"] ++ qpath ["core"; "fmt"; "Debug"] ++
            [qi "for"; qi n; qg Brace ([qp "#"; qg Bracket [qi "inline"]; qi "fn"; qi "fmt"; qg Parenth ([qp "&"; qi "self"; qp ","; qi "f"; qp ":"; qp "&"; qi "mut"] ++
               qpath ["core"; "fmt"; "Formatter"]); qp "-"; qp ">"] ++ qpath ["core"; "fmt"; "Result"] ++
               [qg Brace (qpath ["core"; "fmt"; "Formatter"; "write_str"] ++ [qg Parenth [qi "f"; qp ","; qs n]])])] ++ std_toks f r
        | TIdent n sp :: TPunct "!" sp' :: TGroup d a sg :: r =>
            if String.eqb n "stringify" then TLit (LStr (str a)) sp :: std_toks f r
            else match excerpt tb n a with Some s => TLit (LStr s) sp :: std_toks f r | None =>
                 match known n (std_toks f a) with
                 | Some x => x ++ std_toks f r
                 | None => TIdent n sp :: TPunct "!" sp' :: TGroup d (std_toks f a) sg :: std_toks f r
                 end end
        | TPunct ":" _ :: TPunct ":" _ :: TIdent "hooq" _ :: TPunct ":" _ :: TPunct ":" _ :: TIdent "summary" sp :: r => std_toks f (TIdent "summary" sp :: r)
        | TPunct ":" _ :: TPunct ":" _ :: TIdent "hooq" _ :: TPunct ":" _ :: TPunct ":" _ :: TIdent "source_excerpt_helpers" sp :: TPunct ":" _ :: TPunct ":" _ :: r => std_toks f r
        | TIdent "eyre" _ :: TPunct ":" _ :: TPunct ":" _ :: TIdent "eyre" sp :: TPunct "!" sp' :: r => std_toks f (TIdent "eyre" sp :: TPunct "!" sp' :: r)
        | TIdent "anyhow" _ :: TPunct ":" _ :: TPunct ":" _ :: TIdent "anyhow" sp :: TPunct "!" sp' :: r => std_toks f (TIdent "anyhow" sp :: TPunct "!" sp' :: r)
        | TPunct ":" _ :: TPunct ":" _ :: TIdent "log" _ :: TPunct ":" _ :: TPunct ":" _ :: TIdent "log" sp :: r => std_toks f (TIdent "log" sp :: r)
        | TPunct ":" _ :: TPunct ":" _ :: TIdent "std" _ :: TPunct ":" _ :: TPunct ":" _ :: TIdent "eprintln" sp :: r => std_toks f (TIdent "eprintln" sp :: r)
        | TGroup d a sg :: r => TGroup d (std_toks f a) sg :: std_toks f r
        | t :: r => t :: std_toks f r
        end
    end.
End Std.

(** ** The environment *)

(** comma separated paths ([syn]) *)
Fixpoint split_commas (ts cur : list tt) : list (list tt) :=
  match ts with
  | [] => match cur with [] => [] | _ => [rev cur] end
  | t :: r => if is_punct "," t then rev cur :: split_commas r [] else split_commas r (t :: cur)
  end.
Fixpoint simple_segs (ts : list tt) : option (list seg) :=
  match ts with
  | [TIdent s sp] => Some [mk_seg s [] sp]
  | TIdent s sp :: TPunct ":" _ :: TPunct ":" _ :: r => match simple_segs r with Some l => Some (mk_seg s [] sp :: l) | None => None end
  | _ => None
  end.
Definition simple_path (ts : list tt) : option path :=
  match ts with
  | TPunct ":" _ :: TPunct ":" _ :: r => match simple_segs r with Some l => Some (mk_path true l) | None => None end
  | _ => match simple_segs ts with Some l => Some (mk_path false l) | None => None end
  end.
Fixpoint all_some {A} (l : list (option A)) : option (list A) :=
  match l with [] => Some [] | Some x :: r => match all_some r with Some xs => Some (x :: xs) | None => None end | None :: _ => None end.
Definition paths_of (ts : list tt) : option (list path) := all_some (map simple_path (split_commas ts [])).
(** [name = value] ([syn]) *)
Definition mnv_of (ts : list tt) : option (path * list tt) :=
  match ts with
  | TIdent s sp :: TPunct "=" _ :: v => Some (mk_path false [mk_seg s [] sp], v)
  | _ => None
  end.
(** [TokenStream::to_string]: the recorded string whose tokens these are *)
Definition lookup_str (table : list (string * string)) (ts : list tt) : string :=
  match mget (unwords (flat ts)) table with Some s => s | None => unwords (flat ts) end.
(** the parsers of strings in hooq.toml: generated tables *)
Definition toml_of (ft : features) (pt : list (string * list tt)) : toml_env :=
  mk_toml_env ft (fun s => match mget s pt with Some ts => simple_path ts | None => None end) (fun s => mget s pt) (fun s => mget s pt).
Record setup : Type := mk_setup {
  su_features : features;
  su_doc : list (string * ftable);               (* hooq.toml *)
  su_texts : list (string * list tt);            (* its strings as tokens *)
  su_strs : list (string * string);              (* strings of the recording by the words of their tokens *)
  su_parse : list (list string * expr);          (* rendered hooks that the walker looks at again, as [syn] parses them *)
  su_ends : ends;                                (* where the groups and literals of the source end *)
  su_crate : string }.
Fixpoint find_parse (w : list string) (l : list (list string * expr)) : option expr :=
  match l with [] => None | (a, e) :: r => if same_words a w then Some e else find_parse w r end.
Definition env_of (su : setup) : env :=
  mk_env (mk_attr_env (ft_consume (su_features su)) (flavor_lookup (toml_of (su_features su) (su_texts su)) "" (DiskToml (su_doc su)) []) mnv_of)
    (fun ts => Some (match su_parse su with [] => EVerbatim ts | l => match find_parse (flat ts) l with Some e => e | None => EVerbatim ts end end)) (lookup_str (su_strs su)).
(** the words of the expansion of an item *)
Definition expanded (su : setup) (args : list meta) (it : item) : list string :=
  match hooq_impls paths_of (env_of su) args it with
  | Ok ts => flat (std_toks (su_ends su) (su_crate su) (lookup_str (su_strs su)) (N.to_nat 100000) ts)
  | Err _ => ["<error>"]
  | Panic _ => ["<panic>"]
  end.
