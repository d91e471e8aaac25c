(** Computed cases for C13 and C18: how every construct is printed, written as Rust text.

    C13 and C18 say that the output has the same nodes as the input.  Here it is shown for each construct that its printed form is the text it was made of: nothing is lost,
    doubled or moved.  [#[o]] is an outer attribute of the construct, [#![i]] an inner one; only what Rust allows is tried.  *)
From Coq Require Import String Ascii Bool Arith List.
From Verif Require Import Base Tokens Method Paths Context Flavor Attrs Syntax RootAttr.
Import ListNotations.
Open Scope string_scope.
Open Scope list_scope.

(** tokens with a blank after each; [None] delimiters as [<< >>] *)
Fixpoint text1 (t : tt) : string :=
  let inside := (fix go l := match l with [] => "" | t :: r => (text1 t ++ go r)%string end) in
  match t with
  | TIdent s _ => s ++ " "
  | TPunct c _ => String c " "
  | TLit (LOther s) _ => s ++ " "
  | TLit (LStr s) _ => "'" ++ s ++ "' "
  | TLit (LUsize _) _ => "N "
  | TGroup Parenth ts _ => "( " ++ inside ts ++ ") "
  | TGroup Brace ts _ => "{ " ++ inside ts ++ "} "
  | TGroup Bracket ts _ => "[ " ++ inside ts ++ "] "
  | TGroup NoDelim ts _ => "<< " ++ inside ts ++ ">> "
  end%string.
Definition text (ts : list tt) : string := fold_right (fun t r => (text1 t ++ r)%string) "" ts.

Definition cs := call_site.
Definition P (l : list string) : path := mk_path false (map (fun s => mk_seg s [] cs) l).
Definition o : attr := mk_attr false cs (MPath (P ["o"])).
Definition i : attr := mk_attr true cs (MPath (P ["i"])).
(** tokens from words: a word of one character that is no letter is punctuation *)
Definition word (s : string) : list tt :=
  match s with
  | String c "" => if Nat.leb 97 (nat_of_ascii c) then [TIdent s cs] else [TPunct c cs]
  | _ => [TIdent s cs]
  end.
Definition W (l : list string) : list tt := flat_map word l.
Definition N (s : string) : expr := EPath [] (P [s]).
Definition a := N "a".
Definition b := N "b".
Definition c := N "c".
Definition S1 : list stmt := [SExpr a (Some cs); SExpr b None].
Definition m (p : string) (d : delim) (l : list string) : mac := Mac (P [p]) d cs (W l) None.
Definition sg : sig := mk_sig "f" RetNone (W ["fn"; "f"]).

Definition cases : list (list tt * string) :=
  [(etoks (EArray [o] cs [a; b] (W [","; ","])), "# [ o ] [ a , b , ] ");
   (etoks (EAssign [o] a (W ["="]) b), "# [ o ] a = b ");
   (etoks (EAsync [o] (W ["async"; "move"]) cs S1), "# [ o ] async move { a ; b } ");
   (etoks (EAwait [o] a (W ["."; "await"])), "# [ o ] a . await ");
   (etoks (EBinary [o] a (W ["+"; "="]) b), "# [ o ] a + = b ");
   (etoks (EBlock [i; o] (W ["'"; "l"; ":"]) cs S1), "# [ o ] ' l : { # ! [ i ] a ; b } ");
   (etoks (EBreak [o] (W ["break"]) (Some a)), "# [ o ] break a ");
   (etoks (EBreak [o] (W ["break"]) None), "# [ o ] break ");
   (etoks (ECall [o] a cs [b; c] (W [","])), "# [ o ] a ( b , c ) ");
   (etoks (ECast [o] a (W ["as"; "u8"])), "# [ o ] a as u8 ");
   (etoks (EClosure [o] (W ["move"; "|"; "x"; "|"]) RetNone a), "# [ o ] move | x | a ");
   (etoks (EConst [o; i] (W ["const"]) cs S1), "# [ o ] const { # ! [ i ] a ; b } ");
   (etoks (EContinue [o] (W ["continue"])), "# [ o ] continue ");
   (etoks (EField [o] a (W ["."; "x"])), "# [ o ] a . x ");
   (etoks (EForLoop [o; i] (W ["for"; "x"; "in"]) a cs S1), "# [ o ] for x in a { # ! [ i ] a ; b } ");
   (etoks (EGroup [o] cs a), "# [ o ] << a >> ");
   (etoks (EIf [o] (W ["if"]) a cs S1 (W ["else"]) (Some (EBlock [] [] cs [SExpr c None]))), "# [ o ] if a { a ; b } else { c } ");
   (etoks (EIf [o] (W ["if"]) a cs S1 [] None), "# [ o ] if a { a ; b } ");
   (etoks (EIndex [o] a cs b), "# [ o ] a [ b ] ");
   (etoks (EInfer [o] (W ["_"])), "# [ o ] _ ");
   (etoks (ELet [o] (W ["let"; "x"; "="]) a), "# [ o ] let x = a ");
   (etoks (ELit [o] (LOther "1") cs), "# [ o ] 1 ");
   (etoks (ELoop [o; i] (W ["loop"]) cs S1), "# [ o ] loop { # ! [ i ] a ; b } ");
   (etoks (EMacro [o] (m "m" Bracket ["x"; ","; "y"])), "# [ o ] m ! [ x , y ] ");
   (etoks (EMatch [o; i] (W ["match"]) a cs [Arm [o] (W ["x"]) (W ["if"]) (Some b) (W ["="; ">"]) c (W [","]); Arm [] (W ["_"]) [] None (W ["="; ">"]) a []]),
      "# [ o ] match a { # ! [ i ] # [ o ] x if b = > c , _ = > a } ");
   (etoks (EMethodCall [o] a (W ["."; "x"]) cs [b; c] (W [","; ","])), "# [ o ] a . x ( b , c , ) ");
   (etoks (EParen [o] cs a), "# [ o ] ( a ) ");
   (etoks (EPath [o] (mk_path true [mk_seg "x" [] cs; mk_seg "y" (W [":"; ":"; "<"; "T"; ">"]) cs])), "# [ o ] : : x : : y : : < T > ");
   (etoks (ERange [o] (Some a) (W ["."; "."]) (Some b)), "# [ o ] a . . b ");
   (etoks (ERange [] None (W ["."; "."]) (Some b)), ". . b ");
   (etoks (ERange [] (Some a) (W ["."; "."]) None), "a . . ");
   (etoks (ERawAddr [o] (W ["&"; "raw"; "mut"]) a), "# [ o ] & raw mut a ");
   (etoks (EReference [o] (W ["&"; "mut"]) a), "# [ o ] & mut a ");
   (etoks (ERepeat [o] cs a (W [";"]) b), "# [ o ] [ a ; b ] ");
   (etoks (EReturn [o] cs (Some a)), "# [ o ] return a ");
   (etoks (EReturn [o] cs None), "# [ o ] return ");
   (etoks (EStruct [o] (P ["x"; "y"]) cs [FieldV [o] (W ["f"]) (W [":"]) a; FieldV [o] (W ["g"]) [] (N "g")] (W [","; ","]) (W ["."; "."]) (Some b)),
      "# [ o ] x : : y { # [ o ] f : a , # [ o ] g , . . b } ");
   (etoks (ETry [o] a cs), "# [ o ] a ? ");
   (etoks (ETryBlock [o] (W ["try"]) cs S1), "# [ o ] try { a ; b } ");
   (etoks (ETuple [o] cs [a; b] (W [","])), "# [ o ] ( a , b ) ");
   (etoks (ETuple [] cs [a] (W [","])), "( a , ) ");
   (etoks (EUnary [o] (W ["-"]) a), "# [ o ] - a ");
   (etoks (EUnsafe [o; i] (W ["unsafe"]) cs S1), "# [ o ] unsafe { # ! [ i ] a ; b } ");
   (etoks (EWhile [o; i] (W ["while"]) a cs S1), "# [ o ] while a { # ! [ i ] a ; b } ");
   (etoks (EYield [o] (W ["yield"]) (Some a)), "# [ o ] yield a ");
   (etoks (EVerbatim (W ["x"; "y"])), "x y ");
   (stoks (SLocal [o] (W ["let"; "x"]) (W [";"])), "# [ o ] let x ; ");
   (stoks (SLocalInit [o] (W ["let"; "x"; "="]) a (W ["else"]) (Some (EBlock [] [] cs S1)) (W [";"])), "# [ o ] let x = a else { a ; b } ; ");
   (stoks (SItem (IOther [o] (W ["use"; "x"; ";"]))), "# [ o ] use x ; ");
   (stoks (SExpr a (Some cs)), "a ; ");
   (stoks (SExpr a None), "a ");
   (stoks (Syntax.SMacro [o] (m "m" Brace ["x"]) (W [";"])), "# [ o ] m ! { x } ; ");
   (itoks (IFn [o; i] (W ["pub"]) sg cs S1), "# [ o ] pub fn f { # ! [ i ] a ; b } ");
   (itoks (IImpl [o; i] (W ["impl"; "T"]) cs
      [IIFn [o; i] (W ["pub"]) sg cs S1; IIConst [o] (W ["const"; "x"; "="]) a (W [";"]); IIMacro [o] (m "m" Parenth ["x"]) (W [";"]); IIOther [o] (W ["type"; "x"; ";"])]),
      "# [ o ] impl T { # ! [ i ] # [ o ] pub fn f { # ! [ i ] a ; b } # [ o ] const x = a ; # [ o ] m ! ( x ) ; # [ o ] type x ; } ");
   (itoks (IMod [o; i] (W ["mod"; "x"]) cs [IConst [] (W ["const"; "x"; "="]) a (W [";"])]), "# [ o ] mod x { # ! [ i ] const x = a ; } ");
   (itoks (IConst [o] (W ["const"; "x"; "="]) a (W [";"])), "# [ o ] const x = a ; ");
   (itoks (IStatic [o] (W ["static"; "x"; "="]) a (W [";"])), "# [ o ] static x = a ; ");
   (itoks (ITrait [o; i] (W ["trait"; "T"]) cs
      [TIConst [o] (W ["const"; "x"; "="]) a (W [";"]); TIFn [o; i] sg cs S1; TIMacro [o] (m "m" Parenth ["x"]) (W [";"]); TIOther [o] (W ["type"; "x"; ";"])]),
      "# [ o ] trait T { # ! [ i ] # [ o ] const x = a ; # [ o ] fn f { # ! [ i ] a ; b } # [ o ] m ! ( x ) ; # [ o ] type x ; } ");
   (itoks (IMacro [o] None (m "m" Parenth ["x"]) (W [";"])), "# [ o ] m ! ( x ) ; ");
   (itoks (IMacro [o] (Some "n") (m "macro_rules" Brace ["x"]) []), "# [ o ] macro_rules ! n { x } ");
   (itoks (IOther [o] (W ["use"; "x"; ";"])), "# [ o ] use x ; ");
   (vtoks (VFile [i] [IOther [] (W ["use"; "x"; ";"]); IOther [o] (W ["use"; "y"; ";"])] (W [","])), "use x ; # [ o ] use y ; , ");
   (vtoks (VItem (IOther [o] (W ["use"; "x"; ";"])) (W [","])), "# [ o ] use x ; , ");
   (vtoks (VExpr a (W [","])), "a , ");
   (vtoks (VStmt (SExpr a (Some cs)) (W [","])), "a ; , ");
   (attr_toks (mk_attr false cs (MList (P ["x"; "y"]) Bracket (W ["z"]) cs)), "# [ x : : y [ z ] ] ");
   (attr_toks (mk_attr false cs (MNameValue (P ["x"]) (VStr "s" cs))), "# [ x = 's' ] ");
   (attr_toks (mk_attr false cs (MNameValue (P ["x"]) (VPath (P ["y"; "z"])))), "# [ x = y : : z ] ");
   (attr_toks (mk_attr false cs (MNameValue (P ["x"]) (VOther (W ["-"; "z"])))), "# [ x = - z ] ")].
Example C13_ex_printed : map (fun x => text (fst x)) cases = map snd cases.
Proof. vm_compute. reflexivity. Qed.

(** positions stay: each token of [return a?; f(x)] is where it was *)
Definition at_ (n : nat) : span := mk_span "f.rs" 1 n.
Example C13_ex_positions :
  map tt_span (etoks (EReturn [] (at_ 3) (Some (ETry [] (ECall [] (EPath [] (mk_path false [mk_seg "f" [] (at_ 10)])) (at_ 11) [ELit [] (LOther "1") (at_ 12)] []) (at_ 14)))) ++
               stoks (SExpr (EBlock [] [] (at_ 20) []) (Some (at_ 22)))) = [at_ 3; at_ 10; at_ 11; at_ 14; at_ 20; at_ 22].
Proof. reflexivity. Qed.
