(** What the closure inserted by a preset reports, read off its tokens: [let] bindings of literals, paths and macro calls, and one reporting macro.
    Names are looked up among the bindings and the closure's parameter only; a closure that uses any other name, or does anything else, does not read.  *)
From Coq Require Import String Ascii Bool Arith List.
From Verif Require Import Base Tokens.
Import ListNotations.
Open Scope string_scope.
Open Scope list_scope.

(** the values there are: text, a number, the path of a constant, the result of a macro on tokens, the error; [abs] says that the path begins with [::] *)
Inductive said : Type := SText (s : string) | SNum (n : nat) | SPath (abs : bool) (l : list string) | SMac (abs : bool) (l : list string) (ts : list tt) | SError.
Definition scope : Type := list (string * said).
Fixpoint look (x : string) (e : scope) : option said := match e with [] => None | (y, v) :: e' => if String.eqb x y then Some v else look x e' end.

(** [::a::b] at the front *)
Fixpoint read_tail (ts : list tt) : list string * list tt :=
  match ts with TPunct ":" _ :: TPunct ":" _ :: TIdent x _ :: r => let (l, r') := read_tail r in (x :: l, r') | _ => ([], ts) end.
Definition read_path (ts : list tt) : option (bool * list string * list tt) :=
  match ts with
  | TIdent x _ :: r => let (l, r') := read_tail r in Some (false, x :: l, r')
  | _ => match read_tail ts with ([], _) => None | (l, r) => Some (true, l, r) end
  end.
Definition read_value (e : scope) (ts : list tt) : option (said * list tt) :=
  match ts with
  | TLit (LStr s) _ :: r => Some (SText s, r)
  | TLit (LUsize n) _ :: r => Some (SNum n, r)
  | _ => match read_path ts with
         | Some (b, l, TPunct "!" _ :: TGroup Parenth a _ :: r) => Some (SMac b l a, r)
         | Some (false, [x], r) => option_map (fun v => (v, r)) (look x e)
         | Some (b, l, r) => Some (SPath b l, r)
         | None => None
         end
  end.

(** format strings: text, [{x}] and [{x:?}] *)
Inductive piece : Type := PText (s : string) | PShow (v : said) | PDebug (v : said).
Definition snoc (s : string) (c : ascii) : string := (s ++ String c "")%string.
Definition flush (s : string) (l : list piece) : list piece := if String.eqb s "" then l else PText s :: l.
(** [seen] is the text read, or within braces the name, the text after the colon if there is one *)
Inductive reading : Type := InText (seen : string) | InName (seen : string) | InSpec (name seen : string).
Fixpoint pieces (e : scope) (st : reading) (s : string) : option (list piece) :=
  match s, st with
  | EmptyString, InText t => Some (flush t [])
  | EmptyString, _ => None
  | String c r, InText t => if Ascii.eqb c "{" then option_map (flush t) (pieces e (InName "") r) else if Ascii.eqb c "}" then None else pieces e (InText (snoc t c)) r
  | String c r, InName x =>
      if Ascii.eqb c "}" then match look x e, pieces e (InText "") r with Some v, Some l => Some (PShow v :: l) | _, _ => None end
      else if Ascii.eqb c ":" then pieces e (InSpec x "") r else if Ascii.eqb c "{" then None else pieces e (InName (snoc x c)) r
  | String c r, InSpec x t =>
      if Ascii.eqb c "}" then match String.eqb t "?", look x e, pieces e (InText "") r with true, Some v, Some l => Some (PDebug v :: l) | _, _, _ => None end
      else if Ascii.eqb c "{" then None else pieces e (InSpec x (snoc t c)) r
  end.

(** a line on the error stream, a record of the crate log, a text handed back, an event of the crate tracing with its fields ([%e] is shown) *)
Inductive report : Type := RPrint (l : list piece) | RLog (level : said) (l : list piece) | RFormat (l : list piece) | REvent (level : said) (fields : list (string * piece)).
Fixpoint read_fields (fuel : nat) (e : scope) (ts : list tt) : option (list (string * piece)) :=
  match fuel, ts with
  | _, [] => Some []
  | S k, TIdent x _ :: TPunct "," _ :: r => match look x e, read_fields k e r with Some v, Some l => Some ((x, PShow v) :: l) | _, _ => None end
  | S k, TIdent x _ :: TPunct "=" _ :: TPunct "%" _ :: TIdent y _ :: TPunct "," _ :: r => match look y e, read_fields k e r with Some v, Some l => Some ((x, PShow v) :: l) | _, _ => None end
  | _, _ => None
  end.
Definition read_text (e : scope) (ts : list tt) : option (list piece) := match ts with [TLit (LStr s) _] => pieces e (InText "") s | _ => None end.
Definition path_is (abs : bool) (l : list string) (abs' : bool) (l' : list string) : bool := Bool.eqb abs abs' && if list_eq_dec string_dec l l' then true else false.
Definition read_report (e : scope) (abs : bool) (l : list string) (a : list tt) : option report :=
  if path_is abs l true ["std"; "eprintln"] then option_map RPrint (read_text e a)
  else if path_is abs l false ["format"] then option_map RFormat (read_text e a)
  else match read_value e a with
       | Some (lv, TPunct "," _ :: r) =>
           if path_is abs l true ["log"; "log"] then option_map (RLog lv) (read_text e r)
           else if path_is abs l true ["tracing"; "event"] then option_map (REvent lv) (read_fields (List.length r) e r)
           else None
       | _ => None
       end.
(** the block of a closure *)
Fixpoint read_block (fuel : nat) (e : scope) (ts : list tt) : option report :=
  let last := match read_value e ts with Some (SMac b l a, ([] | [TPunct ";" _])) => read_report e b l a | _ => None end in
  match fuel, ts with
  | S k, TIdent w _ :: TIdent x _ :: TPunct "=" _ :: r =>
      if String.eqb w "let" then match read_value e r with Some (v, TPunct ";" _ :: r') => read_block k ((x, v) :: e) r' | _ => None end else last
  | _, _ => last
  end.
(** [|e| { .. }] and [|| { .. }] *)
Definition read_closure (ts : list tt) : option report :=
  match ts with
  | [TPunct "|" _; TIdent x _; TPunct "|" _; TGroup Brace b _] => read_block (List.length b) [(x, SError)] b
  | [TPunct "|" _; TPunct "|" _; TGroup Brace b _] => read_block (List.length b) [] b
  | _ => None
  end.
(** a method call whose one argument is a closure that reports *)
Definition reports (name : string) (call : list tt) (r : report) : Prop :=
  exists sp1 sp2 args sp3, call = [TPunct "." sp1; TIdent name sp2; TGroup Parenth args sp3] /\ read_closure args = Some r.

(** * What the presets report *)
Definition in_file (q : span) : said := SText (sp_file q).
Definition in_line (q : span) : said := SNum (sp_line q).
Definition in_col (q : span) : said := SNum (sp_col q).
(** the macros that print an expression in short (hooq-helpers) are reached through the crate *)
Definition helper (crate mac : string) : list string := if String.eqb crate "hooq_macros" then [crate; mac] else [crate; "source_excerpt_helpers"; mac].
Definition excerpt_of (crate : string) (src : list tt) : said := SMac true (helper crate "excerpted_pretty_stringify") src.
Definition one_line_of (crate : string) (src : list tt) : said := SMac true (helper crate "one_line_stringify") src.
Definition place (q : span) : list piece := [PShow (in_file q); PText ":"; PShow (in_line q); PText ":"; PShow (in_col q)].
Definition nl : string := String (ascii_of_nat 10) "".
(** [level] is what [$level] stands for *)
Definition preset_report (crate : string) (p : list string) (level : said) (q : span) (src : list tt) : report :=
  match p with
  | "log" :: _ => RLog level (PText "(" :: place q ++ [PText ") "; PShow SError; PText nl; PShow (excerpt_of crate src)])
  | "tracing" :: _ => REvent level [("path", PShow (in_file q)); ("line", PShow (in_line q)); ("col", PShow (in_col q)); ("error", PShow SError); ("expr", PShow (one_line_of crate src))]
  | ["anyhow"] | ["eyre"] | ["color_eyre"] => RFormat (PText "[" :: place q ++ [PText ("]" ++ nl)%string; PShow (excerpt_of crate src)])
  | _ => RPrint (PText "[" :: place q ++ [PText "] "; PDebug SError; PText nl; PShow (excerpt_of crate src)])
  end.
(** the presets that take the level from [$level] *)
Definition levelled (p : list string) : bool := match p with ("log" | "tracing") :: _ => true | _ => false end.
(** [ts] is a path [::a::b], or [a::b] *)
Inductive path_toks : bool -> list string -> list tt -> Prop :=
| pt_abs : forall x l s1 s2 s3 ts, more_toks l ts -> path_toks true (x :: l) (TPunct ":" s1 :: TPunct ":" s2 :: TIdent x s3 :: ts)
| pt_rel : forall x y l s ts, more_toks (y :: l) ts -> path_toks false (x :: y :: l) (TIdent x s :: ts)
with more_toks : list string -> list tt -> Prop :=
| mt_nil : more_toks [] []
| mt_cons : forall x l s1 s2 s3 ts, more_toks l ts -> more_toks (x :: l) (TPunct ":" s1 :: TPunct ":" s2 :: TIdent x s3 :: ts).
