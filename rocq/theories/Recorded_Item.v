(** Recorded expansions of the real macro: walker/item and walker/stmt.  Generated by conformance/gen.py.  *)
From Coq Require Import String Ascii Bool Arith NArith List.
From Verif Require Import Base Tokens Method Paths Context Flavor Attrs Syntax Conformance.
Import ListNotations.
Open Scope string_scope.
Open Scope list_scope.
Open Scope N_scope.

(** ** hooq-macros/tests/walker/item/const.rs *)
Definition doc_walker_item_const : list (string * ftable) := [].
Definition texts_walker_item_const : list (string * list tt) := let S := at_ "" in [].
Definition strs_walker_item_const : list (string * string) :=
  [("( no tag )", "(no tag)");
   ("tag : { 0 }", "tag: {0}
")].
Definition ends_walker_item_const : list (N * N * (N * N * string)) :=
  [(5, 2, (5, 8, "")); (6, 2, (8, 5, "")); (6, 15, (8, 4, "")); (6, 24, (8, 3, "")); (6, 29, (8, 2, "")); (7, 13, (7, 30, "")); (7, 14, (7, 23, """tag: {}""")); (9, 2, (9, 26, "")); (9, 15, (9, 25, """(no tag)""")); (10, 2, (10, 39, "")); (10, 25, (10, 38, "")); (10, 26, (10, 30, """Ok""")); (10, 32, (10, 37, """Err""")); (11, 9, (40, 2, "")); (12, 6, (12, 21, "")); (12, 12, (12, 20, "")); (13, 12, (13, 14, "")); (13, 25, (13, 27, "")); (13, 29, (13, 31, "")); (13, 33, (15, 6, "")); (14, 12, (14, 16, "")); (14, 13, (14, 15, "")); (17, 33, (39, 6, "")); (18, 10, (18, 36, "")); (18, 23, (18, 35, """inner func""")); (19, 14, (19, 26, "")); (19, 37, (19, 39, "")); (19, 41, (19, 43, "")); (19, 45, (36, 10, "")); (20, 21, (22, 14, "")); (21, 27, (21, 31, "")); (21, 28, (21, 30, "")); (24, 17, (24, 19, "")); (26, 14, (26, 34, "")); (26, 27, (26, 33, """deep""")); (27, 23, (33, 14, "")); (28, 25, (30, 18, "")); (29, 32, (29, 34, "")); (32, 20, (32, 24, "")); (32, 21, (32, 23, "")); (42, 2, (42, 8, "")); (43, 8, (43, 10, "")); (43, 11, (45, 2, ""))].
Definition su_walker_item_const : setup := mk_setup (mk_features false false true false false "hooq") doc_walker_item_const texts_walker_item_const strs_walker_item_const [] ends_walker_item_const "const".
Definition it_walker_item_const_0 : item := let S := at_ "hooq-macros/tests/walker/item/const.rs" in
  (IMod [mk_attr false (S 6 1) (MList (mk_path false [mk_seg "hooq" [] (S 6 3); mk_seg "method" [] (S 6 9)]) Parenth [O S "." 6 16; I S "inspect" 6 17; G S Parenth [O S "|" 6 25; I S "_" 6 26; O S "|" 6 27; G S Brace [I S "println" 7 5; O S "!" 7 12; G S Parenth [L S (LStr "tag: {}") 7 14; O S "," 7 23; O S "$" 7 25; I S "tag" 7 26] 7 13; O S ";" 7 30] 6 29] 6 24] (S 6 15)); mk_attr false (S 9 1) (MNameValue (mk_path false [mk_seg "hooq" [] (S 9 3); mk_seg "tag" [] (S 9 9)]) (VStr "(no tag)" (S 9 15))); mk_attr false (S 10 1) (MList (mk_path false [mk_seg "hooq" [] (S 10 3); mk_seg "tail_expr_idents" [] (S 10 9)]) Parenth [L S (LStr "Ok") 10 26; O S "," 10 30; L S (LStr "Err") 10 32] (S 10 25))] [I S "mod" 11 1; I S "tmp" 11 5] (S 11 9) [(IFn [mk_attr false (S 12 5) (MList (mk_path false [mk_seg "allow" [] (S 12 7)]) Parenth [I S "unused" 12 13] (S 12 12))] [] (mk_sig "hoge" (RetPath (mk_path false [mk_seg "Result" [O S "<" 13 24; G S Parenth [] 13 25; O S "," 13 27; G S Parenth [] 13 29; O S ">" 13 31] (S 13 18)])) [I S "fn" 13 5; I S "hoge" 13 8; G S Parenth [] 13 12; O S "-" 13 15; O S ">" 13 16; I S "Result" 13 18; O S "<" 13 24; G S Parenth [] 13 25; O S "," 13 27; G S Parenth [] 13 29; O S ">" 13 31]) (S 13 33) [(SExpr (ECall [] (EPath [] (mk_path false [mk_seg "Err" [] (S 14 9)])) (S 14 12) [(ETuple [] (S 14 13) [] [])] []) None)]); (IConst [] [I S "pub" 17 5; I S "const" 17 9; I S "STATIC_VAR" 17 15; O S ":" 17 25; I S "u32" 17 27; O S "=" 17 31] (EBlock [] [] (S 17 33) [(SItem (IFn [mk_attr false (S 18 9) (MNameValue (mk_path false [mk_seg "hooq" [] (S 18 11); mk_seg "tag" [] (S 18 17)]) (VStr "inner func" (S 18 23)))] [] (mk_sig "_f" (RetPath (mk_path false [mk_seg "Result" [O S "<" 19 36; G S Parenth [] 19 37; O S "," 19 39; G S Parenth [] 19 41; O S ">" 19 43] (S 19 30)])) [I S "fn" 19 9; I S "_f" 19 12; G S Parenth [I S "flag" 19 15; O S ":" 19 19; I S "bool" 19 21] 19 14; O S "-" 19 27; O S ">" 19 28; I S "Result" 19 30; O S "<" 19 36; G S Parenth [] 19 37; O S "," 19 39; G S Parenth [] 19 41; O S ">" 19 43]) (S 19 45) [(SExpr (EIf [] [I S "if" 20 13] (EPath [] (mk_path false [mk_seg "flag" [] (S 20 16)])) (S 20 21) [(SExpr (EReturn [] (S 21 17) (Some (ECall [] (EPath [] (mk_path false [mk_seg "Err" [] (S 21 24)])) (S 21 27) [(ETuple [] (S 21 28) [] [])] []))) (Some (S 21 31)))] [] None) None); (SExpr (ETry [] (ECall [] (EPath [] (mk_path false [mk_seg "hoge" [] (S 24 13)])) (S 24 17) [] []) (S 24 19)) (Some (S 24 20))); (SLocalInit [mk_attr false (S 26 13) (MNameValue (mk_path false [mk_seg "hooq" [] (S 26 15); mk_seg "tag" [] (S 26 21)]) (VStr "deep" (S 26 27)))] [I S "let" 27 13; I S "res" 27 17; O S "=" 27 21] (EBlock [] [] (S 27 23) [(SExpr (EIf [] [I S "if" 28 17] (EPath [] (mk_path false [mk_seg "flag" [] (S 28 20)])) (S 28 25) [(SExpr (EReturn [] (S 29 21) (Some (ECall [] (EPath [] (mk_path false [mk_seg "hoge" [] (S 29 28)])) (S 29 32) [] []))) (Some (S 29 34)))] [] None) None); (SExpr (ECall [] (EPath [] (mk_path false [mk_seg "Err" [] (S 32 17)])) (S 32 20) [(ETuple [] (S 32 21) [] [])] []) None)]) [] None [O S ";" 33 14]); (SExpr (EPath [] (mk_path false [mk_seg "res" [] (S 35 13)])) None)])); (SExpr (ELit [] (LOther "10") (S 38 9)) None)]) [O S ";" 39 6])]).
Definition args_walker_item_const_0 : list meta := let S := at_ "hooq-macros/tests/walker/item/const.rs" in [].
Definition rec_walker_item_const_0 : list string :=
  ["mod tmp { # [ allow ( unused ) ] fn hoge ( ) - > Result < ( ) , ( ) > { Err ( ( ) ) . inspect ( | _ | { { : : std : : io : : _print ( format_args ! (";
   """tag:\s{0}\n"" , ""(no\stag)"" ) ) ; } ; } ) } pub const STATIC_VAR : u32 = { fn _f ( flag : bool ) - > Result < ( ) , ( ) > { if flag { return Err ( ( )";
   ") . inspect ( | _ | { { : : std : : io : : _print ( format_args ! ( ""tag:\s{0}\n"" , ""inner\sfunc"" ) ) ; } ; } ) ; } hoge ( ) . inspect ( | _ | { { : :";
   "std : : io : : _print ( format_args ! ( ""tag:\s{0}\n"" , ""inner\sfunc"" ) ) ; } ; } ) ? ; let res = { if flag { return hoge ( ) . inspect ( | _ | { { :";
   ": std : : io : : _print ( format_args ! ( ""tag:\s{0}\n"" , ""deep"" ) ) ; } ; } ) ; } Err ( ( ) ) . inspect ( | _ | { { : : std : : io : : _print (";
   "format_args ! ( ""tag:\s{0}\n"" , ""deep"" ) ) ; } ; } ) } ; res . inspect ( | _ | { { : : std : : io : : _print ( format_args ! ( ""tag:\s{0}\n"" ,";
   """inner\sfunc"" ) ) ; } ; } ) } 10 } ; }"].
(** mod tmp *)
Example recorded_walker_item_const_0 : expanded su_walker_item_const args_walker_item_const_0 it_walker_item_const_0 = words rec_walker_item_const_0.
Proof. vm_compute. reflexivity. Qed.
(** ** hooq-macros/tests/walker/item/fn.rs *)
Definition doc_walker_item_fn : list (string * ftable) := [].
Definition texts_walker_item_fn : list (string * list tt) := let S := at_ "" in [].
Definition strs_walker_item_fn : list (string * string) :=
  [("( no tag )", "(no tag)");
   ("Hello , world !", "Hello, world!
");
   ("tag : { 0 }", "tag: {0}
")].
Definition ends_walker_item_fn : list (N * N * (N * N * string)) :=
  [(3, 2, (3, 8, "")); (4, 2, (6, 5, "")); (4, 15, (6, 4, "")); (4, 24, (6, 3, "")); (4, 29, (6, 2, "")); (5, 13, (5, 30, "")); (5, 14, (5, 23, """tag: {}""")); (7, 2, (7, 26, "")); (7, 15, (7, 25, """(no tag)""")); (8, 8, (8, 10, "")); (8, 21, (8, 23, "")); (8, 25, (8, 27, "")); (8, 29, (31, 2, "")); (9, 6, (9, 26, "")); (9, 19, (9, 25, """func""")); (10, 9, (10, 11, "")); (10, 22, (10, 24, "")); (10, 26, (10, 28, "")); (10, 30, (26, 6, "")); (11, 10, (11, 38, "")); (11, 23, (11, 37, """func inner 1""")); (12, 13, (12, 15, "")); (12, 26, (12, 28, "")); (12, 30, (12, 32, "")); (12, 34, (14, 10, "")); (13, 16, (13, 20, "")); (13, 17, (13, 19, "")); (16, 10, (16, 51, "")); (16, 23, (16, 50, """func inner 2 (not Result)""")); (17, 13, (17, 15, "")); (17, 24, (20, 10, "")); (18, 21, (18, 38, "")); (18, 22, (18, 37, """Hello, world!""")); (22, 18, (22, 20, "")); (23, 18, (23, 20, "")); (25, 12, (25, 16, "")); (25, 13, (25, 15, "")); (28, 6, (28, 8, "")); (30, 8, (30, 12, "")); (30, 9, (30, 11, "")); (33, 2, (33, 8, "")); (34, 8, (34, 10, "")); (34, 11, (36, 2, "")); (35, 9, (35, 11, "")); (35, 22, (35, 24, ""))].
Definition su_walker_item_fn : setup := mk_setup (mk_features false false true false false "hooq") doc_walker_item_fn texts_walker_item_fn strs_walker_item_fn [] ends_walker_item_fn "fn".
Definition it_walker_item_fn_0 : item := let S := at_ "hooq-macros/tests/walker/item/fn.rs" in
  (IFn [mk_attr false (S 4 1) (MList (mk_path false [mk_seg "hooq" [] (S 4 3); mk_seg "method" [] (S 4 9)]) Parenth [O S "." 4 16; I S "inspect" 4 17; G S Parenth [O S "|" 4 25; I S "_" 4 26; O S "|" 4 27; G S Brace [I S "println" 5 5; O S "!" 5 12; G S Parenth [L S (LStr "tag: {}") 5 14; O S "," 5 23; O S "$" 5 25; I S "tag" 5 26] 5 13; O S ";" 5 30] 4 29] 4 24] (S 4 15)); mk_attr false (S 7 1) (MNameValue (mk_path false [mk_seg "hooq" [] (S 7 3); mk_seg "tag" [] (S 7 9)]) (VStr "(no tag)" (S 7 15)))] [] (mk_sig "func" (RetPath (mk_path false [mk_seg "Result" [O S "<" 8 20; G S Parenth [] 8 21; O S "," 8 23; G S Parenth [] 8 25; O S ">" 8 27] (S 8 14)])) [I S "fn" 8 1; I S "func" 8 4; G S Parenth [] 8 8; O S "-" 8 11; O S ">" 8 12; I S "Result" 8 14; O S "<" 8 20; G S Parenth [] 8 21; O S "," 8 23; G S Parenth [] 8 25; O S ">" 8 27]) (S 8 29) [(SItem (IFn [mk_attr false (S 9 5) (MNameValue (mk_path false [mk_seg "hooq" [] (S 9 7); mk_seg "tag" [] (S 9 13)]) (VStr "func" (S 9 19)))] [] (mk_sig "f" (RetPath (mk_path false [mk_seg "Result" [O S "<" 10 21; G S Parenth [] 10 22; O S "," 10 24; G S Parenth [] 10 26; O S ">" 10 28] (S 10 15)])) [I S "fn" 10 5; I S "f" 10 8; G S Parenth [] 10 9; O S "-" 10 12; O S ">" 10 13; I S "Result" 10 15; O S "<" 10 21; G S Parenth [] 10 22; O S "," 10 24; G S Parenth [] 10 26; O S ">" 10 28]) (S 10 30) [(SItem (IFn [mk_attr false (S 11 9) (MNameValue (mk_path false [mk_seg "hooq" [] (S 11 11); mk_seg "tag" [] (S 11 17)]) (VStr "func inner 1" (S 11 23)))] [] (mk_sig "g" (RetPath (mk_path false [mk_seg "Result" [O S "<" 12 25; G S Parenth [] 12 26; O S "," 12 28; G S Parenth [] 12 30; O S ">" 12 32] (S 12 19)])) [I S "fn" 12 9; I S "g" 12 12; G S Parenth [] 12 13; O S "-" 12 16; O S ">" 12 17; I S "Result" 12 19; O S "<" 12 25; G S Parenth [] 12 26; O S "," 12 28; G S Parenth [] 12 30; O S ">" 12 32]) (S 12 34) [(SExpr (ECall [] (EPath [] (mk_path false [mk_seg "Err" [] (S 13 13)])) (S 13 16) [(ETuple [] (S 13 17) [] [])] []) None)])); (SItem (IFn [mk_attr false (S 16 9) (MNameValue (mk_path false [mk_seg "hooq" [] (S 16 11); mk_seg "tag" [] (S 16 17)]) (VStr "func inner 2 (not Result)" (S 16 23)))] [] (mk_sig "h" (RetPath (mk_path false [mk_seg "bool" [] (S 17 19)])) [I S "fn" 17 9; I S "h" 17 12; G S Parenth [] 17 13; O S "-" 17 16; O S ">" 17 17; I S "bool" 17 19]) (S 17 24) [(SMacro [] (Mac (mk_path false [mk_seg "println" [] (S 18 13)]) Parenth (S 18 21) [L S (LStr "Hello, world!") 18 22] (Some [VExpr (ELit [] (LStr "Hello, world!") (S 18 22)) []])) [O S ";" 18 38]); (SExpr (EPath [] (mk_path false [mk_seg "true" [] (S 19 13)])) None)])); (SLocalInit [] [I S "let" 22 9; I S "_" 22 13; O S "=" 22 15] (ECall [] (EPath [] (mk_path false [mk_seg "g" [] (S 22 17)])) (S 22 18) [] []) [] None [O S ";" 22 20]); (SLocalInit [] [I S "let" 23 9; I S "_" 23 13; O S "=" 23 15] (ECall [] (EPath [] (mk_path false [mk_seg "h" [] (S 23 17)])) (S 23 18) [] []) [] None [O S ";" 23 20]); (SExpr (ECall [] (EPath [] (mk_path false [mk_seg "Err" [] (S 25 9)])) (S 25 12) [(ETuple [] (S 25 13) [] [])] []) None)])); (SExpr (ETry [] (ECall [] (EPath [] (mk_path false [mk_seg "f" [] (S 28 5)])) (S 28 6) [] []) (S 28 8)) (Some (S 28 9))); (SExpr (ECall [] (EPath [] (mk_path false [mk_seg "Err" [] (S 30 5)])) (S 30 8) [(ETuple [] (S 30 9) [] [])] []) None)]).
Definition args_walker_item_fn_0 : list meta := let S := at_ "hooq-macros/tests/walker/item/fn.rs" in [].
Definition rec_walker_item_fn_0 : list string :=
  ["fn func ( ) - > Result < ( ) , ( ) > { fn f ( ) - > Result < ( ) , ( ) > { fn g ( ) - > Result < ( ) , ( ) > { Err ( ( ) ) . inspect ( | _ | { { : :";
   "std : : io : : _print ( format_args ! ( ""tag:\s{0}\n"" , ""func\sinner\s1"" ) ) ; } ; } ) } fn h ( ) - > bool { { : : std : : io : : _print ( format_args";
   "! ( ""Hello,\sworld!\n"" ) ) ; } ; true } let _ = g ( ) ; let _ = h ( ) ; Err ( ( ) ) . inspect ( | _ | { { : : std : : io : : _print ( format_args ! (";
   """tag:\s{0}\n"" , ""func"" ) ) ; } ; } ) } f ( ) . inspect ( | _ | { { : : std : : io : : _print ( format_args ! ( ""tag:\s{0}\n"" , ""(no\stag)"" ) ) ; } ; }";
   ") ? ; Err ( ( ) ) . inspect ( | _ | { { : : std : : io : : _print ( format_args ! ( ""tag:\s{0}\n"" , ""(no\stag)"" ) ) ; } ; } ) }"].
(** func *)
Example recorded_walker_item_fn_0 : expanded su_walker_item_fn args_walker_item_fn_0 it_walker_item_fn_0 = words rec_walker_item_fn_0.
Proof. vm_compute. reflexivity. Qed.
(** ** hooq-macros/tests/walker/item/impl.rs *)
Definition doc_walker_item_impl : list (string * ftable) := [].
Definition texts_walker_item_impl : list (string * list tt) := let S := at_ "" in [].
Definition strs_walker_item_impl : list (string * string) :=
  [("6 > Err ( ( ) ) |", "   6>    Err(())
    |");
   ("< hooq_root > / tests / walker / item / impl . rs", "<hooq_root>/tests/walker/item/impl.rs");
   ("[ { 0 } : { 1 } : { 2 } ] { 3 : ? } { 4 }", "[{0}:{1}:{2}] {3:?}
{4}
");
   ("tag : { 0 }", "tag: {0}
")].
Definition ends_walker_item_impl : list (N * N * (N * N * string)) :=
  [(3, 2, (3, 8, "")); (4, 2, (4, 17, "")); (4, 8, (4, 16, "")); (5, 8, (5, 10, "")); (5, 21, (5, 23, "")); (5, 25, (5, 27, "")); (5, 29, (7, 2, "")); (6, 8, (6, 12, "")); (6, 9, (6, 11, "")); (9, 2, (9, 8, "")); (10, 2, (12, 5, "")); (10, 15, (12, 4, "")); (10, 24, (12, 3, "")); (10, 29, (12, 2, "")); (11, 13, (11, 30, "")); (11, 14, (11, 23, """tag: {}""")); (13, 2, (13, 26, "")); (13, 15, (13, 25, """(no tag)""")); (14, 9, (81, 2, "")); (21, 6, (21, 26, "")); (21, 19, (21, 25, """impl""")); (22, 12, (80, 6, "")); (23, 10, (23, 31, "")); (23, 23, (23, 30, """const""")); (24, 35, (33, 10, "")); (25, 14, (25, 40, "")); (25, 27, (25, 39, """inner func""")); (26, 18, (26, 20, "")); (26, 31, (26, 33, "")); (26, 35, (26, 37, "")); (26, 39, (30, 14, "")); (27, 21, (27, 23, "")); (29, 21, (29, 23, "")); (35, 10, (35, 47, "")); (35, 23, (35, 46, """impl related function""")); (36, 17, (36, 19, "")); (36, 30, (36, 32, "")); (36, 34, (36, 36, "")); (36, 38, (40, 10, "")); (37, 17, (37, 19, "")); (39, 16, (39, 20, "")); (39, 17, (39, 19, "")); (42, 10, (42, 62, "")); (42, 23, (42, 61, """impl related function 2 (not Result)""")); (43, 17, (43, 19, "")); (43, 28, (45, 10, "")); (47, 10, (47, 25, "")); (47, 16, (47, 24, "")); (48, 10, (48, 37, "")); (48, 23, (48, 36, """impl method""")); (49, 13, (49, 20, "")); (49, 31, (49, 33, "")); (49, 35, (49, 37, "")); (49, 39, (55, 10, "")); (50, 26, (50, 30, "")); (50, 27, (50, 29, "")); (52, 17, (52, 19, "")); (57, 10, (57, 52, "")); (57, 23, (57, 51, """impl method 2 (not Result)""")); (58, 10, (58, 25, "")); (58, 16, (58, 24, "")); (59, 13, (59, 20, "")); (59, 29, (61, 10, "")); (63, 10, (63, 31, "")); (63, 23, (63, 30, """outer""")); (64, 13, (70, 10, "")); (65, 25, (65, 27, "")); (65, 38, (65, 40, "")); (65, 42, (65, 44, "")); (65, 46, (69, 14, "")); (66, 21, (66, 23, "")); (68, 20, (68, 24, "")); (68, 21, (68, 23, "")); (72, 13, (79, 10, "")); (73, 25, (73, 27, "")); (73, 38, (73, 40, "")); (73, 42, (73, 44, "")); (73, 46, (78, 14, "")); (74, 18, (74, 39, "")); (74, 31, (74, 38, """inner""")); (75, 21, (75, 23, "")); (77, 20, (77, 24, "")); (77, 21, (77, 23, "")); (83, 2, (83, 8, "")); (84, 8, (84, 10, "")); (84, 11, (89, 2, "")); (85, 14, (85, 16, "")); (85, 27, (85, 29, "")); (86, 22, (86, 24, "")); (87, 18, (87, 20, "")); (87, 31, (87, 33, "")); (88, 18, (88, 20, "")); (88, 31, (88, 33, ""))].
Definition su_walker_item_impl : setup := mk_setup (mk_features false false true false false "hooq") doc_walker_item_impl texts_walker_item_impl strs_walker_item_impl [] ends_walker_item_impl "impl".
Definition it_walker_item_impl_0 : item := let S := at_ "<hooq_root>/tests/walker/item/impl.rs" in
  (IFn [mk_attr false (S 4 1) (MList (mk_path false [mk_seg "allow" [] (S 4 3)]) Parenth [I S "unused" 4 9] (S 4 8))] [] (mk_sig "hoge" (RetPath (mk_path false [mk_seg "Result" [O S "<" 5 20; G S Parenth [] 5 21; O S "," 5 23; G S Parenth [] 5 25; O S ">" 5 27] (S 5 14)])) [I S "fn" 5 1; I S "hoge" 5 4; G S Parenth [] 5 8; O S "-" 5 11; O S ">" 5 12; I S "Result" 5 14; O S "<" 5 20; G S Parenth [] 5 21; O S "," 5 23; G S Parenth [] 5 25; O S ">" 5 27]) (S 5 29) [(SExpr (ECall [] (EPath [] (mk_path false [mk_seg "Err" [] (S 6 5)])) (S 6 8) [(ETuple [] (S 6 9) [] [])] []) None)]).
Definition args_walker_item_impl_0 : list meta := let S := at_ "<hooq_root>/tests/walker/item/impl.rs" in [].
Definition rec_walker_item_impl_0 : list string :=
  ["# [ allow ( unused ) ] fn hoge ( ) - > Result < ( ) , ( ) > { Err ( ( ) ) . inspect_err ( | e | { let path = ""<hooq_root>/tests/walker/item/impl.rs"" ;";
   "let line = 6usize ; let col = 5usize ; let expr = ""\s\s\s6>\s\s\s\sErr(())\n\s\s\s\s|"" ; { : : std : : io : : _eprint ( format_args ! (";
   """[{0}:{1}:{2}]\s{3:?}\n{4}\n"" , path , line , col , e , expr ) ) ; } ; } ) }"].
Definition it_walker_item_impl_1 : item := let S := at_ "<hooq_root>/tests/walker/item/impl.rs" in
  (IMod [mk_attr false (S 10 1) (MList (mk_path false [mk_seg "hooq" [] (S 10 3); mk_seg "method" [] (S 10 9)]) Parenth [O S "." 10 16; I S "inspect" 10 17; G S Parenth [O S "|" 10 25; I S "_" 10 26; O S "|" 10 27; G S Brace [I S "println" 11 5; O S "!" 11 12; G S Parenth [L S (LStr "tag: {}") 11 14; O S "," 11 23; O S "$" 11 25; I S "tag" 11 26] 11 13; O S ";" 11 30] 10 29] 10 24] (S 10 15)); mk_attr false (S 13 1) (MNameValue (mk_path false [mk_seg "hooq" [] (S 13 3); mk_seg "tag" [] (S 13 9)]) (VStr "(no tag)" (S 13 15)))] [I S "mod" 14 1; I S "tmp" 14 5] (S 14 9) [(IOther [] [I S "use" 15 5; I S "util_macros" 15 9; O S ":" 15 20; O S ":" 15 21; I S "id" 15 22; O S ";" 15 24]); (IOther [] [I S "use" 17 5; I S "super" 17 9; O S ":" 17 14; O S ":" 17 15; I S "hoge" 17 16; O S ";" 17 20]); (IOther [] [I S "pub" 19 5; I S "struct" 19 9; I S "S" 19 16; O S ";" 19 17]); (IImpl [mk_attr false (S 21 5) (MNameValue (mk_path false [mk_seg "hooq" [] (S 21 7); mk_seg "tag" [] (S 21 13)]) (VStr "impl" (S 21 19)))] [I S "impl" 22 5; I S "S" 22 10] (S 22 12) [(IIConst [mk_attr false (S 23 9) (MNameValue (mk_path false [mk_seg "hooq" [] (S 23 11); mk_seg "tag" [] (S 23 17)]) (VStr "const" (S 23 23)))] [I S "const" 24 9; I S "_CONST_VAL" 24 15; O S ":" 24 25; I S "usize" 24 27; O S "=" 24 33] (EBlock [] [] (S 24 35) [(SItem (IFn [mk_attr false (S 25 13) (MNameValue (mk_path false [mk_seg "hooq" [] (S 25 15); mk_seg "tag" [] (S 25 21)]) (VStr "inner func" (S 25 27)))] [] (mk_sig "_f" (RetPath (mk_path false [mk_seg "Result" [O S "<" 26 30; G S Parenth [] 26 31; O S "," 26 33; G S Parenth [] 26 35; O S ">" 26 37] (S 26 24)])) [I S "fn" 26 13; I S "_f" 26 16; G S Parenth [] 26 18; O S "-" 26 21; O S ">" 26 22; I S "Result" 26 24; O S "<" 26 30; G S Parenth [] 26 31; O S "," 26 33; G S Parenth [] 26 35; O S ">" 26 37]) (S 26 39) [(SExpr (ETry [] (ECall [] (EPath [] (mk_path false [mk_seg "hoge" [] (S 27 17)])) (S 27 21) [] []) (S 27 23)) (Some (S 27 24))); (SExpr (ECall [] (EPath [] (mk_path false [mk_seg "hoge" [] (S 29 17)])) (S 29 21) [] []) None)])); (SExpr (ELit [] (LOther "10") (S 32 13)) None)]) [O S ";" 33 10]); (IIFn [mk_attr false (S 35 9) (MNameValue (mk_path false [mk_seg "hooq" [] (S 35 11); mk_seg "tag" [] (S 35 17)]) (VStr "impl related function" (S 35 23)))] [I S "pub" 36 9] (mk_sig "g" (RetPath (mk_path false [mk_seg "Result" [O S "<" 36 29; G S Parenth [] 36 30; O S "," 36 32; G S Parenth [] 36 34; O S ">" 36 36] (S 36 23)])) [I S "fn" 36 13; I S "g" 36 16; G S Parenth [] 36 17; O S "-" 36 20; O S ">" 36 21; I S "Result" 36 23; O S "<" 36 29; G S Parenth [] 36 30; O S "," 36 32; G S Parenth [] 36 34; O S ">" 36 36]) (S 36 38) [(SExpr (ETry [] (ECall [] (EPath [] (mk_path false [mk_seg "hoge" [] (S 37 13)])) (S 37 17) [] []) (S 37 19)) (Some (S 37 20))); (SExpr (ECall [] (EPath [] (mk_path false [mk_seg "Err" [] (S 39 13)])) (S 39 16) [(ETuple [] (S 39 17) [] [])] []) None)]); (IIFn [mk_attr false (S 42 9) (MNameValue (mk_path false [mk_seg "hooq" [] (S 42 11); mk_seg "tag" [] (S 42 17)]) (VStr "impl related function 2 (not Result)" (S 42 23)))] [I S "pub" 43 9] (mk_sig "h" (RetPath (mk_path false [mk_seg "bool" [] (S 43 23)])) [I S "fn" 43 13; I S "h" 43 16; G S Parenth [] 43 17; O S "-" 43 20; O S ">" 43 21; I S "bool" 43 23]) (S 43 28) [(SExpr (EPath [] (mk_path false [mk_seg "true" [] (S 44 13)])) None)]); (IIFn [mk_attr false (S 47 9) (MList (mk_path false [mk_seg "allow" [] (S 47 11)]) Parenth [I S "unused" 47 17] (S 47 16)); mk_attr false (S 48 9) (MNameValue (mk_path false [mk_seg "hooq" [] (S 48 11); mk_seg "tag" [] (S 48 17)]) (VStr "impl method" (S 48 23)))] [] (mk_sig "i" (RetPath (mk_path false [mk_seg "Result" [O S "<" 49 30; G S Parenth [] 49 31; O S "," 49 33; G S Parenth [] 49 35; O S ">" 49 37] (S 49 24)])) [I S "fn" 49 9; I S "i" 49 12; G S Parenth [O S "&" 49 14; I S "self" 49 15] 49 13; O S "-" 49 21; O S ">" 49 22; I S "Result" 49 24; O S "<" 49 30; G S Parenth [] 49 31; O S "," 49 33; G S Parenth [] 49 35; O S ">" 49 37]) (S 49 39) [(SLocalInit [] [I S "let" 50 13; I S "res" 50 17; O S "=" 50 21] (ECall [] (EPath [] (mk_path false [mk_seg "Err" [] (S 50 23)])) (S 50 26) [(ETuple [] (S 50 27) [] [])] []) [] None [O S ";" 50 30]); (SExpr (ETry [] (ECall [] (EPath [] (mk_path false [mk_seg "hoge" [] (S 52 13)])) (S 52 17) [] []) (S 52 19)) (Some (S 52 20))); (SExpr (EPath [] (mk_path false [mk_seg "res" [] (S 54 13)])) None)]); (IIFn [mk_attr false (S 57 9) (MNameValue (mk_path false [mk_seg "hooq" [] (S 57 11); mk_seg "tag" [] (S 57 17)]) (VStr "impl method 2 (not Result)" (S 57 23))); mk_attr false (S 58 9) (MList (mk_path false [mk_seg "allow" [] (S 58 11)]) Parenth [I S "unused" 58 17] (S 58 16))] [] (mk_sig "j" (RetPath (mk_path false [mk_seg "bool" [] (S 59 24)])) [I S "fn" 59 9; I S "j" 59 12; G S Parenth [O S "&" 59 14; I S "self" 59 15] 59 13; O S "-" 59 21; O S ">" 59 22; I S "bool" 59 24]) (S 59 29) [(SExpr (EPath [] (mk_path false [mk_seg "true" [] (S 60 13)])) None)]); (IIMacro [mk_attr false (S 63 9) (MNameValue (mk_path false [mk_seg "hooq" [] (S 63 11); mk_seg "tag" [] (S 63 17)]) (VStr "outer" (S 63 23)))] (Mac (mk_path false [mk_seg "id" [] (S 64 9)]) Brace (S 64 13) [I S "pub" 65 13; I S "fn" 65 17; I S "outer" 65 20; G S Parenth [] 65 25; O S "-" 65 28; O S ">" 65 29; I S "Result" 65 31; O S "<" 65 37; G S Parenth [] 65 38; O S "," 65 40; G S Parenth [] 65 42; O S ">" 65 44; G S Brace [I S "hoge" 66 17; G S Parenth [] 66 21; O S "?" 66 23; O S ";" 66 24; I S "Err" 68 17; G S Parenth [G S Parenth [] 68 21] 68 20] 65 46] (Some [VFile [] [(IFn [] [I S "pub" 65 13] (mk_sig "outer" (RetPath (mk_path false [mk_seg "Result" [O S "<" 65 37; G S Parenth [] 65 38; O S "," 65 40; G S Parenth [] 65 42; O S ">" 65 44] (S 65 31)])) [I S "fn" 65 17; I S "outer" 65 20; G S Parenth [] 65 25; O S "-" 65 28; O S ">" 65 29; I S "Result" 65 31; O S "<" 65 37; G S Parenth [] 65 38; O S "," 65 40; G S Parenth [] 65 42; O S ">" 65 44]) (S 65 46) [(SExpr (ETry [] (ECall [] (EPath [] (mk_path false [mk_seg "hoge" [] (S 66 17)])) (S 66 21) [] []) (S 66 23)) (Some (S 66 24))); (SExpr (ECall [] (EPath [] (mk_path false [mk_seg "Err" [] (S 68 17)])) (S 68 20) [(ETuple [] (S 68 21) [] [])] []) None)])] []])) []); (IIMacro [] (Mac (mk_path false [mk_seg "id" [] (S 72 9)]) Brace (S 72 13) [I S "pub" 73 13; I S "fn" 73 17; I S "inner" 73 20; G S Parenth [] 73 25; O S "-" 73 28; O S ">" 73 29; I S "Result" 73 31; O S "<" 73 37; G S Parenth [] 73 38; O S "," 73 40; G S Parenth [] 73 42; O S ">" 73 44; G S Brace [O S "#" 74 17; G S Bracket [I S "hooq" 74 19; O S ":" 74 23; O S ":" 74 24; I S "tag" 74 25; O S "=" 74 29; L S (LStr "inner") 74 31] 74 18; I S "hoge" 75 17; G S Parenth [] 75 21; O S "?" 75 23; O S ";" 75 24; I S "Err" 77 17; G S Parenth [G S Parenth [] 77 21] 77 20] 73 46] (Some [VFile [] [(IFn [] [I S "pub" 73 13] (mk_sig "inner" (RetPath (mk_path false [mk_seg "Result" [O S "<" 73 37; G S Parenth [] 73 38; O S "," 73 40; G S Parenth [] 73 42; O S ">" 73 44] (S 73 31)])) [I S "fn" 73 17; I S "inner" 73 20; G S Parenth [] 73 25; O S "-" 73 28; O S ">" 73 29; I S "Result" 73 31; O S "<" 73 37; G S Parenth [] 73 38; O S "," 73 40; G S Parenth [] 73 42; O S ">" 73 44]) (S 73 46) [(SExpr (ETry [mk_attr false (S 74 17) (MNameValue (mk_path false [mk_seg "hooq" [] (S 74 19); mk_seg "tag" [] (S 74 25)]) (VStr "inner" (S 74 31)))] (ECall [] (EPath [] (mk_path false [mk_seg "hoge" [] (S 75 17)])) (S 75 21) [] []) (S 75 23)) (Some (S 75 24))); (SExpr (ECall [] (EPath [] (mk_path false [mk_seg "Err" [] (S 77 17)])) (S 77 20) [(ETuple [] (S 77 21) [] [])] []) None)])] []])) [])])]).
Definition args_walker_item_impl_1 : list meta := let S := at_ "<hooq_root>/tests/walker/item/impl.rs" in [].
Definition rec_walker_item_impl_1 : list string :=
  ["mod tmp { use util_macros : : id ; use super : : hoge ; pub struct S ; impl S { const _CONST_VAL : usize = { fn _f ( ) - > Result < ( ) , ( ) > { hoge";
   "( ) . inspect ( | _ | { { : : std : : io : : _print ( format_args ! ( ""tag:\s{0}\n"" , ""inner\sfunc"" ) ) ; } ; } ) ? ; hoge ( ) . inspect ( | _ | { { :";
   ": std : : io : : _print ( format_args ! ( ""tag:\s{0}\n"" , ""inner\sfunc"" ) ) ; } ; } ) } 10 } ; pub fn g ( ) - > Result < ( ) , ( ) > { hoge ( ) .";
   "inspect ( | _ | { { : : std : : io : : _print ( format_args ! ( ""tag:\s{0}\n"" , ""impl\srelated\sfunction"" ) ) ; } ; } ) ? ; Err ( ( ) ) . inspect ( |";
   "_ | { { : : std : : io : : _print ( format_args ! ( ""tag:\s{0}\n"" , ""impl\srelated\sfunction"" ) ) ; } ; } ) } pub fn h ( ) - > bool { true } # [ allow";
   "( unused ) ] fn i ( & self ) - > Result < ( ) , ( ) > { let res = Err ( ( ) ) ; hoge ( ) . inspect ( | _ | { { : : std : : io : : _print ( format_args";
   "! ( ""tag:\s{0}\n"" , ""impl\smethod"" ) ) ; } ; } ) ? ; res . inspect ( | _ | { { : : std : : io : : _print ( format_args ! ( ""tag:\s{0}\n"" ,";
   """impl\smethod"" ) ) ; } ; } ) } # [ allow ( unused ) ] fn j ( & self ) - > bool { true } pub fn outer ( ) - > Result < ( ) , ( ) > { hoge ( ) . inspect";
   "( | _ | { { : : std : : io : : _print ( format_args ! ( ""tag:\s{0}\n"" , ""outer"" ) ) ; } ; } ) ? ; Err ( ( ) ) . inspect ( | _ | { { : : std : : io : :";
   "_print ( format_args ! ( ""tag:\s{0}\n"" , ""outer"" ) ) ; } ; } ) } pub fn inner ( ) - > Result < ( ) , ( ) > { hoge ( ) . inspect ( | _ | { { : : std :";
   ": io : : _print ( format_args ! ( ""tag:\s{0}\n"" , ""inner"" ) ) ; } ; } ) ? ; Err ( ( ) ) . inspect ( | _ | { { : : std : : io : : _print ( format_args";
   "! ( ""tag:\s{0}\n"" , ""impl"" ) ) ; } ; } ) } } }"].
(** hoge *)
Example recorded_walker_item_impl_0 : expanded su_walker_item_impl args_walker_item_impl_0 it_walker_item_impl_0 = words rec_walker_item_impl_0.
Proof. vm_compute. reflexivity. Qed.
(** mod tmp *)
Example recorded_walker_item_impl_1 : expanded su_walker_item_impl args_walker_item_impl_1 it_walker_item_impl_1 = words rec_walker_item_impl_1.
Proof. vm_compute. reflexivity. Qed.
(** ** hooq-macros/tests/walker/item/macro.rs *)
Definition doc_walker_item_macro : list (string * ftable) := [].
Definition texts_walker_item_macro : list (string * list tt) := let S := at_ "" in [].
Definition strs_walker_item_macro : list (string * string) :=
  [("( no tag )", "(no tag)");
   ("Err ( ( ) )", "Err(())");
   ("enresult ( ( ) )", "enresult(())");
   ("enresult ( ( ) ) ?", "enresult(()) ?");
   ("tag : { 0 } , expr : { 1 }", "tag: {0}, expr: {1}
")].
Definition ends_walker_item_macro : list (N * N * (N * N * string)) :=
  [(3, 2, (3, 8, "")); (4, 15, (4, 21, "")); (4, 35, (4, 37, "")); (4, 39, (6, 2, "")); (5, 7, (5, 10, "")); (8, 2, (8, 8, "")); (9, 2, (11, 5, "")); (9, 15, (11, 4, "")); (9, 24, (11, 3, "")); (9, 29, (11, 2, "")); (10, 13, (10, 61, "")); (10, 14, (10, 33, """tag: {}, expr: {}""")); (10, 51, (10, 60, "")); (12, 2, (12, 26, "")); (12, 15, (12, 25, """(no tag)""")); (13, 9, (63, 2, "")); (19, 6, (19, 21, "")); (19, 12, (19, 20, "")); (20, 22, (32, 6, "")); (21, 9, (21, 11, "")); (21, 15, (31, 10, "")); (22, 22, (22, 34, "")); (22, 45, (22, 47, "")); (22, 49, (22, 51, "")); (22, 53, (30, 14, "")); (23, 25, (27, 18, "")); (24, 29, (24, 33, "")); (24, 30, (24, 32, "")); (26, 31, (26, 35, "")); (26, 32, (26, 34, "")); (29, 20, (29, 24, "")); (29, 21, (29, 23, "")); (34, 6, (34, 27, "")); (34, 19, (34, 26, """outer""")); (35, 9, (41, 6, "")); (36, 21, (36, 23, "")); (36, 34, (36, 36, "")); (36, 38, (36, 40, "")); (36, 42, (40, 10, "")); (37, 21, (37, 25, "")); (37, 22, (37, 24, "")); (39, 16, (39, 20, "")); (39, 17, (39, 19, "")); (43, 9, (62, 6, "")); (44, 10, (44, 31, "")); (44, 23, (44, 30, """const""")); (45, 35, (54, 10, "")); (46, 14, (46, 40, "")); (46, 27, (46, 39, """inner func""")); (47, 18, (47, 20, "")); (47, 31, (47, 33, "")); (47, 35, (47, 37, "")); (47, 39, (51, 14, "")); (48, 25, (48, 29, "")); (48, 26, (48, 28, "")); (50, 25, (50, 29, "")); (50, 26, (50, 28, "")); (56, 21, (56, 23, "")); (56, 34, (56, 36, "")); (56, 38, (56, 40, "")); (56, 42, (61, 10, "")); (57, 14, (57, 35, "")); (57, 27, (57, 34, """inner""")); (58, 21, (58, 25, "")); (58, 22, (58, 24, "")); (60, 16, (60, 20, "")); (60, 17, (60, 19, "")); (65, 2, (65, 8, "")); (66, 8, (66, 10, "")); (66, 11, (69, 2, "")); (67, 15, (67, 17, "")); (67, 28, (67, 30, "")); (68, 15, (68, 17, "")); (68, 28, (68, 30, ""))].
Definition su_walker_item_macro : setup := mk_setup (mk_features false false true false false "hooq") doc_walker_item_macro texts_walker_item_macro strs_walker_item_macro [] ends_walker_item_macro "macro".
Definition it_walker_item_macro_0 : item := let S := at_ "hooq-macros/tests/walker/item/macro.rs" in
  (IFn [] [] (mk_sig "enresult" (RetPath (mk_path false [mk_seg "Result" [O S "<" 4 31; I S "T" 4 32; O S "," 4 33; G S Parenth [] 4 35; O S ">" 4 37] (S 4 25)])) [I S "fn" 4 1; I S "enresult" 4 4; O S "<" 4 12; I S "T" 4 13; O S ">" 4 14; G S Parenth [I S "t" 4 16; O S ":" 4 17; I S "T" 4 19] 4 15; O S "-" 4 22; O S ">" 4 23; I S "Result" 4 25; O S "<" 4 31; I S "T" 4 32; O S "," 4 33; G S Parenth [] 4 35; O S ">" 4 37]) (S 4 39) [(SExpr (ECall [] (EPath [] (mk_path false [mk_seg "Ok" [] (S 5 5)])) (S 5 7) [(EPath [] (mk_path false [mk_seg "t" [] (S 5 8)]))] []) None)]).
Definition args_walker_item_macro_0 : list meta := let S := at_ "hooq-macros/tests/walker/item/macro.rs" in [].
Definition rec_walker_item_macro_0 : list string :=
  ["fn enresult < T > ( t : T ) - > Result < T , ( ) > { Ok ( t ) }"].
Definition it_walker_item_macro_1 : item := let S := at_ "hooq-macros/tests/walker/item/macro.rs" in
  (IMod [mk_attr false (S 9 1) (MList (mk_path false [mk_seg "hooq" [] (S 9 3); mk_seg "method" [] (S 9 9)]) Parenth [O S "." 9 16; I S "inspect" 9 17; G S Parenth [O S "|" 9 25; I S "_" 9 26; O S "|" 9 27; G S Brace [I S "println" 10 5; O S "!" 10 12; G S Parenth [L S (LStr "tag: {}, expr: {}") 10 14; O S "," 10 33; O S "$" 10 35; I S "tag" 10 36; O S "," 10 39; I S "stringify" 10 41; O S "!" 10 50; G S Parenth [O S "$" 10 52; I S "source" 10 53] 10 51] 10 13; O S ";" 10 61] 9 29] 9 24] (S 9 15)); mk_attr false (S 12 1) (MNameValue (mk_path false [mk_seg "hooq" [] (S 12 3); mk_seg "tag" [] (S 12 9)]) (VStr "(no tag)" (S 12 15)))] [I S "mod" 13 1; I S "tmp" 13 5] (S 13 9) [(IOther [] [I S "use" 14 5; I S "util_macros" 14 9; O S ":" 14 20; O S ":" 14 21; I S "id" 14 22; O S ";" 14 24]); (IOther [] [I S "use" 16 5; I S "super" 16 9; O S ":" 16 14; O S ":" 16 15; I S "enresult" 16 16; O S ";" 16 24]); (IMacro [mk_attr false (S 19 5) (MList (mk_path false [mk_seg "allow" [] (S 19 7)]) Parenth [I S "unused" 19 13] (S 19 12))] (Some "tmp") (Mac (mk_path false [mk_seg "macro_rules" [] (S 20 5)]) Brace (S 20 22) [G S Parenth [] 21 9; O S "=" 21 12; O S ">" 21 13; G S Brace [I S "fn" 22 13; I S "tmp_fn" 22 16; G S Parenth [I S "flag" 22 23; O S ":" 22 27; I S "bool" 22 29] 22 22; O S "-" 22 35; O S ">" 22 36; I S "Result" 22 38; O S "<" 22 44; G S Parenth [] 22 45; O S "," 22 47; G S Parenth [] 22 49; O S ">" 22 51; G S Brace [I S "if" 23 17; I S "flag" 23 20; G S Brace [I S "enresult" 24 21; G S Parenth [G S Parenth [] 24 30] 24 29; O S "?" 24 33; O S ";" 24 34; I S "return" 26 21; I S "Err" 26 28; G S Parenth [G S Parenth [] 26 32] 26 31; O S ";" 26 35] 23 25; I S "Err" 29 17; G S Parenth [G S Parenth [] 29 21] 29 20] 22 53] 21 15; O S ";" 31 10] None) []); (IMacro [mk_attr false (S 34 5) (MNameValue (mk_path false [mk_seg "hooq" [] (S 34 7); mk_seg "tag" [] (S 34 13)]) (VStr "outer" (S 34 19)))] None (Mac (mk_path false [mk_seg "id" [] (S 35 5)]) Brace (S 35 9) [I S "pub" 36 9; I S "fn" 36 13; I S "outer" 36 16; G S Parenth [] 36 21; O S "-" 36 24; O S ">" 36 25; I S "Result" 36 27; O S "<" 36 33; G S Parenth [] 36 34; O S "," 36 36; G S Parenth [] 36 38; O S ">" 36 40; G S Brace [I S "enresult" 37 13; G S Parenth [G S Parenth [] 37 22] 37 21; O S "?" 37 25; O S ";" 37 26; I S "Err" 39 13; G S Parenth [G S Parenth [] 39 17] 39 16] 36 42] (Some [VFile [] [(IFn [] [I S "pub" 36 9] (mk_sig "outer" (RetPath (mk_path false [mk_seg "Result" [O S "<" 36 33; G S Parenth [] 36 34; O S "," 36 36; G S Parenth [] 36 38; O S ">" 36 40] (S 36 27)])) [I S "fn" 36 13; I S "outer" 36 16; G S Parenth [] 36 21; O S "-" 36 24; O S ">" 36 25; I S "Result" 36 27; O S "<" 36 33; G S Parenth [] 36 34; O S "," 36 36; G S Parenth [] 36 38; O S ">" 36 40]) (S 36 42) [(SExpr (ETry [] (ECall [] (EPath [] (mk_path false [mk_seg "enresult" [] (S 37 13)])) (S 37 21) [(ETuple [] (S 37 22) [] [])] []) (S 37 25)) (Some (S 37 26))); (SExpr (ECall [] (EPath [] (mk_path false [mk_seg "Err" [] (S 39 13)])) (S 39 16) [(ETuple [] (S 39 17) [] [])] []) None)])] []])) []); (IMacro [] None (Mac (mk_path false [mk_seg "id" [] (S 43 5)]) Brace (S 43 9) [O S "#" 44 9; G S Bracket [I S "hooq" 44 11; O S ":" 44 15; O S ":" 44 16; I S "tag" 44 17; O S "=" 44 21; L S (LStr "const") 44 23] 44 10; I S "const" 45 9; I S "_CONST_VAL" 45 15; O S ":" 45 25; I S "usize" 45 27; O S "=" 45 33; G S Brace [O S "#" 46 13; G S Bracket [I S "hooq" 46 15; O S ":" 46 19; O S ":" 46 20; I S "tag" 46 21; O S "=" 46 25; L S (LStr "inner func") 46 27] 46 14; I S "fn" 47 13; I S "_f" 47 16; G S Parenth [] 47 18; O S "-" 47 21; O S ">" 47 22; I S "Result" 47 24; O S "<" 47 30; G S Parenth [] 47 31; O S "," 47 33; G S Parenth [] 47 35; O S ">" 47 37; G S Brace [I S "enresult" 48 17; G S Parenth [G S Parenth [] 48 26] 48 25; O S "?" 48 29; O S ";" 48 30; I S "enresult" 50 17; G S Parenth [G S Parenth [] 50 26] 50 25] 47 39; L S (LOther "10") 53 13] 45 35; O S ";" 54 10; I S "pub" 56 9; I S "fn" 56 13; I S "inner" 56 16; G S Parenth [] 56 21; O S "-" 56 24; O S ">" 56 25; I S "Result" 56 27; O S "<" 56 33; G S Parenth [] 56 34; O S "," 56 36; G S Parenth [] 56 38; O S ">" 56 40; G S Brace [O S "#" 57 13; G S Bracket [I S "hooq" 57 15; O S ":" 57 19; O S ":" 57 20; I S "tag" 57 21; O S "=" 57 25; L S (LStr "inner") 57 27] 57 14; I S "enresult" 58 13; G S Parenth [G S Parenth [] 58 22] 58 21; O S "?" 58 25; O S ";" 58 26; I S "Err" 60 13; G S Parenth [G S Parenth [] 60 17] 60 16] 56 42] (Some [VFile [] [(IConst [mk_attr false (S 44 9) (MNameValue (mk_path false [mk_seg "hooq" [] (S 44 11); mk_seg "tag" [] (S 44 17)]) (VStr "const" (S 44 23)))] [I S "const" 45 9; I S "_CONST_VAL" 45 15; O S ":" 45 25; I S "usize" 45 27; O S "=" 45 33] (EBlock [] [] (S 45 35) [(SItem (IFn [mk_attr false (S 46 13) (MNameValue (mk_path false [mk_seg "hooq" [] (S 46 15); mk_seg "tag" [] (S 46 21)]) (VStr "inner func" (S 46 27)))] [] (mk_sig "_f" (RetPath (mk_path false [mk_seg "Result" [O S "<" 47 30; G S Parenth [] 47 31; O S "," 47 33; G S Parenth [] 47 35; O S ">" 47 37] (S 47 24)])) [I S "fn" 47 13; I S "_f" 47 16; G S Parenth [] 47 18; O S "-" 47 21; O S ">" 47 22; I S "Result" 47 24; O S "<" 47 30; G S Parenth [] 47 31; O S "," 47 33; G S Parenth [] 47 35; O S ">" 47 37]) (S 47 39) [(SExpr (ETry [] (ECall [] (EPath [] (mk_path false [mk_seg "enresult" [] (S 48 17)])) (S 48 25) [(ETuple [] (S 48 26) [] [])] []) (S 48 29)) (Some (S 48 30))); (SExpr (ECall [] (EPath [] (mk_path false [mk_seg "enresult" [] (S 50 17)])) (S 50 25) [(ETuple [] (S 50 26) [] [])] []) None)])); (SExpr (ELit [] (LOther "10") (S 53 13)) None)]) [O S ";" 54 10]); (IFn [] [I S "pub" 56 9] (mk_sig "inner" (RetPath (mk_path false [mk_seg "Result" [O S "<" 56 33; G S Parenth [] 56 34; O S "," 56 36; G S Parenth [] 56 38; O S ">" 56 40] (S 56 27)])) [I S "fn" 56 13; I S "inner" 56 16; G S Parenth [] 56 21; O S "-" 56 24; O S ">" 56 25; I S "Result" 56 27; O S "<" 56 33; G S Parenth [] 56 34; O S "," 56 36; G S Parenth [] 56 38; O S ">" 56 40]) (S 56 42) [(SExpr (ETry [mk_attr false (S 57 13) (MNameValue (mk_path false [mk_seg "hooq" [] (S 57 15); mk_seg "tag" [] (S 57 21)]) (VStr "inner" (S 57 27)))] (ECall [] (EPath [] (mk_path false [mk_seg "enresult" [] (S 58 13)])) (S 58 21) [(ETuple [] (S 58 22) [] [])] []) (S 58 25)) (Some (S 58 26))); (SExpr (ECall [] (EPath [] (mk_path false [mk_seg "Err" [] (S 60 13)])) (S 60 16) [(ETuple [] (S 60 17) [] [])] []) None)])] []])) [])]).
Definition args_walker_item_macro_1 : list meta := let S := at_ "hooq-macros/tests/walker/item/macro.rs" in [].
Definition rec_walker_item_macro_1 : list string :=
  ["mod tmp { use util_macros : : id ; use super : : enresult ; # [ allow ( unused ) ] macro_rules ! tmp { ( ) = > fn tmp_fn ( flag : bool ) - > Result <";
   "( ) , ( ) > { if flag { enresult ( ( ) ) ? ; return Err ( ( ) ) ; } Err ( ( ) ) } ; } pub fn outer ( ) - > Result < ( ) , ( ) > { enresult ( ( ) ) .";
   "inspect ( | _ | { { : : std : : io : : _print ( format_args ! ( ""tag:\s{0},\sexpr:\s{1}\n"" , ""outer"" , ""enresult(())\s?"" ) ) ; } ; } ) ? ; Err ( ( ) )";
   ". inspect ( | _ | { { : : std : : io : : _print ( format_args ! ( ""tag:\s{0},\sexpr:\s{1}\n"" , ""outer"" , ""Err(())"" ) ) ; } ; } ) } const _CONST_VAL :";
   "usize = { fn _f ( ) - > Result < ( ) , ( ) > { enresult ( ( ) ) . inspect ( | _ | { { : : std : : io : : _print ( format_args ! (";
   """tag:\s{0},\sexpr:\s{1}\n"" , ""inner\sfunc"" , ""enresult(())\s?"" ) ) ; } ; } ) ? ; enresult ( ( ) ) . inspect ( | _ | { { : : std : : io : : _print (";
   "format_args ! ( ""tag:\s{0},\sexpr:\s{1}\n"" , ""inner\sfunc"" , ""enresult(())"" ) ) ; } ; } ) } 10 } ; pub fn inner ( ) - > Result < ( ) , ( ) > {";
   "enresult ( ( ) ) . inspect ( | _ | { { : : std : : io : : _print ( format_args ! ( ""tag:\s{0},\sexpr:\s{1}\n"" , ""inner"" , ""enresult(())\s?"" ) ) ; } ;";
   "} ) ? ; Err ( ( ) ) . inspect ( | _ | { { : : std : : io : : _print ( format_args ! ( ""tag:\s{0},\sexpr:\s{1}\n"" , ""(no\stag)"" , ""Err(())"" ) ) ; } ; }";
   ") } }"].
(** enresult *)
Example recorded_walker_item_macro_0 : expanded su_walker_item_macro args_walker_item_macro_0 it_walker_item_macro_0 = words rec_walker_item_macro_0.
Proof. vm_compute. reflexivity. Qed.
(** mod tmp *)
Example recorded_walker_item_macro_1 : expanded su_walker_item_macro args_walker_item_macro_1 it_walker_item_macro_1 = words rec_walker_item_macro_1.
Proof. vm_compute. reflexivity. Qed.
(** ** hooq-macros/tests/walker/item/mod_.rs *)
Definition doc_walker_item_mod : list (string * ftable) := [].
Definition texts_walker_item_mod : list (string * list tt) := let S := at_ "" in [].
Definition strs_walker_item_mod : list (string * string) :=
  [("tag : { 0 }", "tag: {0}
")].
Definition ends_walker_item_mod : list (N * N * (N * N * string)) :=
  [(3, 2, (3, 8, "")); (4, 2, (6, 5, "")); (4, 15, (6, 4, "")); (4, 24, (6, 3, "")); (4, 29, (6, 2, "")); (5, 13, (5, 30, "")); (5, 14, (5, 23, """tag: {}""")); (7, 2, (7, 21, "")); (7, 15, (7, 20, """mod""")); (8, 9, (12, 2, "")); (9, 16, (9, 18, "")); (9, 29, (9, 31, "")); (9, 33, (9, 35, "")); (9, 37, (11, 6, "")); (10, 12, (10, 16, "")); (10, 13, (10, 15, "")); (14, 2, (14, 8, "")); (15, 8, (15, 10, "")); (15, 11, (17, 2, "")); (16, 14, (16, 16, "")); (16, 27, (16, 29, ""))].
Definition su_walker_item_mod : setup := mk_setup (mk_features false false true false false "hooq") doc_walker_item_mod texts_walker_item_mod strs_walker_item_mod [] ends_walker_item_mod "mod_".
Definition it_walker_item_mod_0 : item := let S := at_ "hooq-macros/tests/walker/item/mod_.rs" in
  (IMod [mk_attr false (S 4 1) (MList (mk_path false [mk_seg "hooq" [] (S 4 3); mk_seg "method" [] (S 4 9)]) Parenth [O S "." 4 16; I S "inspect" 4 17; G S Parenth [O S "|" 4 25; I S "_" 4 26; O S "|" 4 27; G S Brace [I S "println" 5 5; O S "!" 5 12; G S Parenth [L S (LStr "tag: {}") 5 14; O S "," 5 23; O S "$" 5 25; I S "tag" 5 26] 5 13; O S ";" 5 30] 4 29] 4 24] (S 4 15)); mk_attr false (S 7 1) (MNameValue (mk_path false [mk_seg "hooq" [] (S 7 3); mk_seg "tag" [] (S 7 9)]) (VStr "mod" (S 7 15)))] [I S "mod" 8 1; I S "tmp" 8 5] (S 8 9) [(IFn [] [I S "pub" 9 5] (mk_sig "func" (RetPath (mk_path false [mk_seg "Result" [O S "<" 9 28; G S Parenth [] 9 29; O S "," 9 31; G S Parenth [] 9 33; O S ">" 9 35] (S 9 22)])) [I S "fn" 9 9; I S "func" 9 12; G S Parenth [] 9 16; O S "-" 9 19; O S ">" 9 20; I S "Result" 9 22; O S "<" 9 28; G S Parenth [] 9 29; O S "," 9 31; G S Parenth [] 9 33; O S ">" 9 35]) (S 9 37) [(SExpr (ECall [] (EPath [] (mk_path false [mk_seg "Err" [] (S 10 9)])) (S 10 12) [(ETuple [] (S 10 13) [] [])] []) None)])]).
Definition args_walker_item_mod_0 : list meta := let S := at_ "hooq-macros/tests/walker/item/mod_.rs" in [].
Definition rec_walker_item_mod_0 : list string :=
  ["mod tmp { pub fn func ( ) - > Result < ( ) , ( ) > { Err ( ( ) ) . inspect ( | _ | { { : : std : : io : : _print ( format_args ! ( ""tag:\s{0}\n"" ,";
   """mod"" ) ) ; } ; } ) } }"].
(** mod tmp *)
Example recorded_walker_item_mod_0 : expanded su_walker_item_mod args_walker_item_mod_0 it_walker_item_mod_0 = words rec_walker_item_mod_0.
Proof. vm_compute. reflexivity. Qed.
(** ** hooq-macros/tests/walker/item/static.rs *)
Definition doc_walker_item_static : list (string * ftable) := [].
Definition texts_walker_item_static : list (string * list tt) := let S := at_ "" in [].
Definition strs_walker_item_static : list (string * string) :=
  [("( no tag )", "(no tag)");
   ("tag : { 0 }", "tag: {0}
")].
Definition ends_walker_item_static : list (N * N * (N * N * string)) :=
  [(5, 2, (5, 8, "")); (6, 2, (8, 5, "")); (6, 15, (8, 4, "")); (6, 24, (8, 3, "")); (6, 29, (8, 2, "")); (7, 13, (7, 30, "")); (7, 14, (7, 23, """tag: {}""")); (9, 2, (9, 26, "")); (9, 15, (9, 25, """(no tag)""")); (10, 2, (10, 39, "")); (10, 25, (10, 38, "")); (10, 26, (10, 30, """Ok""")); (10, 32, (10, 37, """Err""")); (11, 9, (40, 2, "")); (12, 6, (12, 21, "")); (12, 12, (12, 20, "")); (13, 12, (13, 14, "")); (13, 25, (13, 27, "")); (13, 29, (13, 31, "")); (13, 33, (15, 6, "")); (14, 12, (14, 16, "")); (14, 13, (14, 15, "")); (17, 34, (39, 6, "")); (18, 10, (18, 36, "")); (18, 23, (18, 35, """inner func""")); (19, 14, (19, 26, "")); (19, 37, (19, 39, "")); (19, 41, (19, 43, "")); (19, 45, (36, 10, "")); (20, 21, (22, 14, "")); (21, 27, (21, 31, "")); (21, 28, (21, 30, "")); (24, 17, (24, 19, "")); (26, 14, (26, 34, "")); (26, 27, (26, 33, """deep""")); (27, 23, (33, 14, "")); (28, 25, (30, 18, "")); (29, 32, (29, 34, "")); (32, 20, (32, 24, "")); (32, 21, (32, 23, "")); (42, 2, (42, 8, "")); (43, 8, (43, 10, "")); (43, 11, (45, 2, ""))].
Definition su_walker_item_static : setup := mk_setup (mk_features false false true false false "hooq") doc_walker_item_static texts_walker_item_static strs_walker_item_static [] ends_walker_item_static "static".
Definition it_walker_item_static_0 : item := let S := at_ "hooq-macros/tests/walker/item/static.rs" in
  (IMod [mk_attr false (S 6 1) (MList (mk_path false [mk_seg "hooq" [] (S 6 3); mk_seg "method" [] (S 6 9)]) Parenth [O S "." 6 16; I S "inspect" 6 17; G S Parenth [O S "|" 6 25; I S "_" 6 26; O S "|" 6 27; G S Brace [I S "println" 7 5; O S "!" 7 12; G S Parenth [L S (LStr "tag: {}") 7 14; O S "," 7 23; O S "$" 7 25; I S "tag" 7 26] 7 13; O S ";" 7 30] 6 29] 6 24] (S 6 15)); mk_attr false (S 9 1) (MNameValue (mk_path false [mk_seg "hooq" [] (S 9 3); mk_seg "tag" [] (S 9 9)]) (VStr "(no tag)" (S 9 15))); mk_attr false (S 10 1) (MList (mk_path false [mk_seg "hooq" [] (S 10 3); mk_seg "tail_expr_idents" [] (S 10 9)]) Parenth [L S (LStr "Ok") 10 26; O S "," 10 30; L S (LStr "Err") 10 32] (S 10 25))] [I S "mod" 11 1; I S "tmp" 11 5] (S 11 9) [(IFn [mk_attr false (S 12 5) (MList (mk_path false [mk_seg "allow" [] (S 12 7)]) Parenth [I S "unused" 12 13] (S 12 12))] [] (mk_sig "hoge" (RetPath (mk_path false [mk_seg "Result" [O S "<" 13 24; G S Parenth [] 13 25; O S "," 13 27; G S Parenth [] 13 29; O S ">" 13 31] (S 13 18)])) [I S "fn" 13 5; I S "hoge" 13 8; G S Parenth [] 13 12; O S "-" 13 15; O S ">" 13 16; I S "Result" 13 18; O S "<" 13 24; G S Parenth [] 13 25; O S "," 13 27; G S Parenth [] 13 29; O S ">" 13 31]) (S 13 33) [(SExpr (ECall [] (EPath [] (mk_path false [mk_seg "Err" [] (S 14 9)])) (S 14 12) [(ETuple [] (S 14 13) [] [])] []) None)]); (IStatic [] [I S "pub" 17 5; I S "static" 17 9; I S "STATIC_VAR" 17 16; O S ":" 17 26; I S "u32" 17 28; O S "=" 17 32] (EBlock [] [] (S 17 34) [(SItem (IFn [mk_attr false (S 18 9) (MNameValue (mk_path false [mk_seg "hooq" [] (S 18 11); mk_seg "tag" [] (S 18 17)]) (VStr "inner func" (S 18 23)))] [] (mk_sig "_f" (RetPath (mk_path false [mk_seg "Result" [O S "<" 19 36; G S Parenth [] 19 37; O S "," 19 39; G S Parenth [] 19 41; O S ">" 19 43] (S 19 30)])) [I S "fn" 19 9; I S "_f" 19 12; G S Parenth [I S "flag" 19 15; O S ":" 19 19; I S "bool" 19 21] 19 14; O S "-" 19 27; O S ">" 19 28; I S "Result" 19 30; O S "<" 19 36; G S Parenth [] 19 37; O S "," 19 39; G S Parenth [] 19 41; O S ">" 19 43]) (S 19 45) [(SExpr (EIf [] [I S "if" 20 13] (EPath [] (mk_path false [mk_seg "flag" [] (S 20 16)])) (S 20 21) [(SExpr (EReturn [] (S 21 17) (Some (ECall [] (EPath [] (mk_path false [mk_seg "Err" [] (S 21 24)])) (S 21 27) [(ETuple [] (S 21 28) [] [])] []))) (Some (S 21 31)))] [] None) None); (SExpr (ETry [] (ECall [] (EPath [] (mk_path false [mk_seg "hoge" [] (S 24 13)])) (S 24 17) [] []) (S 24 19)) (Some (S 24 20))); (SLocalInit [mk_attr false (S 26 13) (MNameValue (mk_path false [mk_seg "hooq" [] (S 26 15); mk_seg "tag" [] (S 26 21)]) (VStr "deep" (S 26 27)))] [I S "let" 27 13; I S "res" 27 17; O S "=" 27 21] (EBlock [] [] (S 27 23) [(SExpr (EIf [] [I S "if" 28 17] (EPath [] (mk_path false [mk_seg "flag" [] (S 28 20)])) (S 28 25) [(SExpr (EReturn [] (S 29 21) (Some (ECall [] (EPath [] (mk_path false [mk_seg "hoge" [] (S 29 28)])) (S 29 32) [] []))) (Some (S 29 34)))] [] None) None); (SExpr (ECall [] (EPath [] (mk_path false [mk_seg "Err" [] (S 32 17)])) (S 32 20) [(ETuple [] (S 32 21) [] [])] []) None)]) [] None [O S ";" 33 14]); (SExpr (EPath [] (mk_path false [mk_seg "res" [] (S 35 13)])) None)])); (SExpr (ELit [] (LOther "10") (S 38 9)) None)]) [O S ";" 39 6])]).
Definition args_walker_item_static_0 : list meta := let S := at_ "hooq-macros/tests/walker/item/static.rs" in [].
Definition rec_walker_item_static_0 : list string :=
  ["mod tmp { # [ allow ( unused ) ] fn hoge ( ) - > Result < ( ) , ( ) > { Err ( ( ) ) . inspect ( | _ | { { : : std : : io : : _print ( format_args ! (";
   """tag:\s{0}\n"" , ""(no\stag)"" ) ) ; } ; } ) } pub static STATIC_VAR : u32 = { fn _f ( flag : bool ) - > Result < ( ) , ( ) > { if flag { return Err ( (";
   ") ) . inspect ( | _ | { { : : std : : io : : _print ( format_args ! ( ""tag:\s{0}\n"" , ""inner\sfunc"" ) ) ; } ; } ) ; } hoge ( ) . inspect ( | _ | { { :";
   ": std : : io : : _print ( format_args ! ( ""tag:\s{0}\n"" , ""inner\sfunc"" ) ) ; } ; } ) ? ; let res = { if flag { return hoge ( ) . inspect ( | _ | { {";
   ": : std : : io : : _print ( format_args ! ( ""tag:\s{0}\n"" , ""deep"" ) ) ; } ; } ) ; } Err ( ( ) ) . inspect ( | _ | { { : : std : : io : : _print (";
   "format_args ! ( ""tag:\s{0}\n"" , ""deep"" ) ) ; } ; } ) } ; res . inspect ( | _ | { { : : std : : io : : _print ( format_args ! ( ""tag:\s{0}\n"" ,";
   """inner\sfunc"" ) ) ; } ; } ) } 10 } ; }"].
(** mod tmp *)
Example recorded_walker_item_static_0 : expanded su_walker_item_static args_walker_item_static_0 it_walker_item_static_0 = words rec_walker_item_static_0.
Proof. vm_compute. reflexivity. Qed.
(** ** hooq-macros/tests/walker/item/trait.rs *)
Definition doc_walker_item_trait : list (string * ftable) := [].
Definition texts_walker_item_trait : list (string * list tt) := let S := at_ "" in [].
Definition strs_walker_item_trait : list (string * string) :=
  [("( no tag )", "(no tag)");
   ("tag : { 0 }", "tag: {0}
")].
Definition ends_walker_item_trait : list (N * N * (N * N * string)) :=
  [(5, 2, (5, 8, "")); (6, 2, (8, 5, "")); (6, 15, (8, 4, "")); (6, 24, (8, 3, "")); (6, 29, (8, 2, "")); (7, 13, (7, 30, "")); (7, 14, (7, 23, """tag: {}""")); (9, 2, (9, 26, "")); (9, 15, (9, 25, """(no tag)""")); (10, 9, (79, 2, "")); (13, 6, (13, 21, "")); (13, 12, (13, 20, "")); (14, 12, (14, 14, "")); (14, 25, (14, 27, "")); (14, 29, (14, 31, "")); (14, 33, (16, 6, "")); (15, 12, (15, 16, "")); (15, 13, (15, 15, "")); (18, 20, (78, 6, "")); (19, 10, (19, 31, "")); (19, 23, (19, 30, """const""")); (20, 35, (29, 10, "")); (21, 14, (21, 40, "")); (21, 27, (21, 39, """inner func""")); (22, 18, (22, 20, "")); (22, 31, (22, 33, "")); (22, 35, (22, 37, "")); (22, 39, (26, 14, "")); (23, 21, (23, 23, "")); (25, 21, (25, 23, "")); (31, 10, (31, 42, "")); (31, 23, (31, 41, """related function""")); (32, 13, (32, 15, "")); (32, 26, (32, 28, "")); (32, 30, (32, 32, "")); (32, 34, (36, 10, "")); (33, 17, (33, 19, "")); (35, 16, (35, 20, "")); (35, 17, (35, 19, "")); (38, 10, (38, 57, "")); (38, 23, (38, 56, """related function 2 (not Result)""")); (39, 13, (39, 15, "")); (39, 24, (41, 10, "")); (43, 10, (43, 25, "")); (43, 16, (43, 24, "")); (44, 10, (44, 32, "")); (44, 23, (44, 31, """method""")); (45, 13, (45, 20, "")); (45, 31, (45, 33, "")); (45, 35, (45, 37, "")); (45, 39, (51, 10, "")); (46, 26, (46, 30, "")); (46, 27, (46, 29, "")); (48, 17, (48, 19, "")); (53, 10, (53, 47, "")); (53, 23, (53, 46, """method 2 (not Result)""")); (54, 10, (54, 25, "")); (54, 16, (54, 24, "")); (55, 13, (55, 20, "")); (55, 29, (57, 10, "")); (59, 10, (59, 31, "")); (59, 23, (59, 30, """outer""")); (60, 13, (67, 10, "")); (61, 14, (61, 29, "")); (61, 20, (61, 28, "")); (62, 21, (62, 23, "")); (62, 34, (62, 36, "")); (62, 38, (62, 40, "")); (62, 42, (66, 14, "")); (63, 21, (63, 23, "")); (65, 20, (65, 24, "")); (65, 21, (65, 23, "")); (69, 13, (77, 10, "")); (70, 14, (70, 29, "")); (70, 20, (70, 28, "")); (71, 21, (71, 23, "")); (71, 34, (71, 36, "")); (71, 38, (71, 40, "")); (71, 42, (76, 14, "")); (72, 18, (72, 39, "")); (72, 31, (72, 38, """inner""")); (73, 21, (73, 23, "")); (75, 20, (75, 24, "")); (75, 21, (75, 23, "")); (81, 2, (81, 8, "")); (82, 8, (82, 10, "")); (82, 11, (89, 2, "")); (85, 26, (85, 28, "")); (87, 24, (87, 26, "")); (87, 37, (87, 39, "")); (88, 32, (88, 34, ""))].
Definition su_walker_item_trait : setup := mk_setup (mk_features false false true false false "hooq") doc_walker_item_trait texts_walker_item_trait strs_walker_item_trait [] ends_walker_item_trait "trait".
Definition it_walker_item_trait_0 : item := let S := at_ "hooq-macros/tests/walker/item/trait.rs" in
  (IMod [mk_attr false (S 6 1) (MList (mk_path false [mk_seg "hooq" [] (S 6 3); mk_seg "method" [] (S 6 9)]) Parenth [O S "." 6 16; I S "inspect" 6 17; G S Parenth [O S "|" 6 25; I S "_" 6 26; O S "|" 6 27; G S Brace [I S "println" 7 5; O S "!" 7 12; G S Parenth [L S (LStr "tag: {}") 7 14; O S "," 7 23; O S "$" 7 25; I S "tag" 7 26] 7 13; O S ";" 7 30] 6 29] 6 24] (S 6 15)); mk_attr false (S 9 1) (MNameValue (mk_path false [mk_seg "hooq" [] (S 9 3); mk_seg "tag" [] (S 9 9)]) (VStr "(no tag)" (S 9 15)))] [I S "mod" 10 1; I S "tmp" 10 5] (S 10 9) [(IOther [] [I S "use" 11 5; I S "util_macros" 11 9; O S ":" 11 20; O S ":" 11 21; I S "id" 11 22; O S ";" 11 24]); (IFn [mk_attr false (S 13 5) (MList (mk_path false [mk_seg "allow" [] (S 13 7)]) Parenth [I S "unused" 13 13] (S 13 12))] [] (mk_sig "hoge" (RetPath (mk_path false [mk_seg "Result" [O S "<" 14 24; G S Parenth [] 14 25; O S "," 14 27; G S Parenth [] 14 29; O S ">" 14 31] (S 14 18)])) [I S "fn" 14 5; I S "hoge" 14 8; G S Parenth [] 14 12; O S "-" 14 15; O S ">" 14 16; I S "Result" 14 18; O S "<" 14 24; G S Parenth [] 14 25; O S "," 14 27; G S Parenth [] 14 29; O S ">" 14 31]) (S 14 33) [(SExpr (ECall [] (EPath [] (mk_path false [mk_seg "Err" [] (S 15 9)])) (S 15 12) [(ETuple [] (S 15 13) [] [])] []) None)]); (ITrait [] [I S "pub" 18 5; I S "trait" 18 9; I S "Trit" 18 15] (S 18 20) [(TIConst [mk_attr false (S 19 9) (MNameValue (mk_path false [mk_seg "hooq" [] (S 19 11); mk_seg "tag" [] (S 19 17)]) (VStr "const" (S 19 23)))] [I S "const" 20 9; I S "_CONST_VAL" 20 15; O S ":" 20 25; I S "usize" 20 27; O S "=" 20 33] (EBlock [] [] (S 20 35) [(SItem (IFn [mk_attr false (S 21 13) (MNameValue (mk_path false [mk_seg "hooq" [] (S 21 15); mk_seg "tag" [] (S 21 21)]) (VStr "inner func" (S 21 27)))] [] (mk_sig "_f" (RetPath (mk_path false [mk_seg "Result" [O S "<" 22 30; G S Parenth [] 22 31; O S "," 22 33; G S Parenth [] 22 35; O S ">" 22 37] (S 22 24)])) [I S "fn" 22 13; I S "_f" 22 16; G S Parenth [] 22 18; O S "-" 22 21; O S ">" 22 22; I S "Result" 22 24; O S "<" 22 30; G S Parenth [] 22 31; O S "," 22 33; G S Parenth [] 22 35; O S ">" 22 37]) (S 22 39) [(SExpr (ETry [] (ECall [] (EPath [] (mk_path false [mk_seg "hoge" [] (S 23 17)])) (S 23 21) [] []) (S 23 23)) (Some (S 23 24))); (SExpr (ECall [] (EPath [] (mk_path false [mk_seg "hoge" [] (S 25 17)])) (S 25 21) [] []) None)])); (SExpr (ELit [] (LOther "10") (S 28 13)) None)]) [O S ";" 29 10]); (TIFn [mk_attr false (S 31 9) (MNameValue (mk_path false [mk_seg "hooq" [] (S 31 11); mk_seg "tag" [] (S 31 17)]) (VStr "related function" (S 31 23)))] (mk_sig "g" (RetPath (mk_path false [mk_seg "Result" [O S "<" 32 25; G S Parenth [] 32 26; O S "," 32 28; G S Parenth [] 32 30; O S ">" 32 32] (S 32 19)])) [I S "fn" 32 9; I S "g" 32 12; G S Parenth [] 32 13; O S "-" 32 16; O S ">" 32 17; I S "Result" 32 19; O S "<" 32 25; G S Parenth [] 32 26; O S "," 32 28; G S Parenth [] 32 30; O S ">" 32 32]) (S 32 34) [(SExpr (ETry [] (ECall [] (EPath [] (mk_path false [mk_seg "hoge" [] (S 33 13)])) (S 33 17) [] []) (S 33 19)) (Some (S 33 20))); (SExpr (ECall [] (EPath [] (mk_path false [mk_seg "Err" [] (S 35 13)])) (S 35 16) [(ETuple [] (S 35 17) [] [])] []) None)]); (TIFn [mk_attr false (S 38 9) (MNameValue (mk_path false [mk_seg "hooq" [] (S 38 11); mk_seg "tag" [] (S 38 17)]) (VStr "related function 2 (not Result)" (S 38 23)))] (mk_sig "h" (RetPath (mk_path false [mk_seg "bool" [] (S 39 19)])) [I S "fn" 39 9; I S "h" 39 12; G S Parenth [] 39 13; O S "-" 39 16; O S ">" 39 17; I S "bool" 39 19]) (S 39 24) [(SExpr (EPath [] (mk_path false [mk_seg "true" [] (S 40 13)])) None)]); (TIFn [mk_attr false (S 43 9) (MList (mk_path false [mk_seg "allow" [] (S 43 11)]) Parenth [I S "unused" 43 17] (S 43 16)); mk_attr false (S 44 9) (MNameValue (mk_path false [mk_seg "hooq" [] (S 44 11); mk_seg "tag" [] (S 44 17)]) (VStr "method" (S 44 23)))] (mk_sig "i" (RetPath (mk_path false [mk_seg "Result" [O S "<" 45 30; G S Parenth [] 45 31; O S "," 45 33; G S Parenth [] 45 35; O S ">" 45 37] (S 45 24)])) [I S "fn" 45 9; I S "i" 45 12; G S Parenth [O S "&" 45 14; I S "self" 45 15] 45 13; O S "-" 45 21; O S ">" 45 22; I S "Result" 45 24; O S "<" 45 30; G S Parenth [] 45 31; O S "," 45 33; G S Parenth [] 45 35; O S ">" 45 37]) (S 45 39) [(SLocalInit [] [I S "let" 46 13; I S "res" 46 17; O S "=" 46 21] (ECall [] (EPath [] (mk_path false [mk_seg "Err" [] (S 46 23)])) (S 46 26) [(ETuple [] (S 46 27) [] [])] []) [] None [O S ";" 46 30]); (SExpr (ETry [] (ECall [] (EPath [] (mk_path false [mk_seg "hoge" [] (S 48 13)])) (S 48 17) [] []) (S 48 19)) (Some (S 48 20))); (SExpr (EPath [] (mk_path false [mk_seg "res" [] (S 50 13)])) None)]); (TIFn [mk_attr false (S 53 9) (MNameValue (mk_path false [mk_seg "hooq" [] (S 53 11); mk_seg "tag" [] (S 53 17)]) (VStr "method 2 (not Result)" (S 53 23))); mk_attr false (S 54 9) (MList (mk_path false [mk_seg "allow" [] (S 54 11)]) Parenth [I S "unused" 54 17] (S 54 16))] (mk_sig "j" (RetPath (mk_path false [mk_seg "bool" [] (S 55 24)])) [I S "fn" 55 9; I S "j" 55 12; G S Parenth [O S "&" 55 14; I S "self" 55 15] 55 13; O S "-" 55 21; O S ">" 55 22; I S "bool" 55 24]) (S 55 29) [(SExpr (EPath [] (mk_path false [mk_seg "true" [] (S 56 13)])) None)]); (TIMacro [mk_attr false (S 59 9) (MNameValue (mk_path false [mk_seg "hooq" [] (S 59 11); mk_seg "tag" [] (S 59 17)]) (VStr "outer" (S 59 23)))] (Mac (mk_path false [mk_seg "id" [] (S 60 9)]) Brace (S 60 13) [O S "#" 61 13; G S Bracket [I S "allow" 61 15; G S Parenth [I S "unused" 61 21] 61 20] 61 14; I S "fn" 62 13; I S "outer" 62 16; G S Parenth [] 62 21; O S "-" 62 24; O S ">" 62 25; I S "Result" 62 27; O S "<" 62 33; G S Parenth [] 62 34; O S "," 62 36; G S Parenth [] 62 38; O S ">" 62 40; G S Brace [I S "hoge" 63 17; G S Parenth [] 63 21; O S "?" 63 23; O S ";" 63 24; I S "Err" 65 17; G S Parenth [G S Parenth [] 65 21] 65 20] 62 42] (Some [VFile [] [(IFn [mk_attr false (S 61 13) (MList (mk_path false [mk_seg "allow" [] (S 61 15)]) Parenth [I S "unused" 61 21] (S 61 20))] [] (mk_sig "outer" (RetPath (mk_path false [mk_seg "Result" [O S "<" 62 33; G S Parenth [] 62 34; O S "," 62 36; G S Parenth [] 62 38; O S ">" 62 40] (S 62 27)])) [I S "fn" 62 13; I S "outer" 62 16; G S Parenth [] 62 21; O S "-" 62 24; O S ">" 62 25; I S "Result" 62 27; O S "<" 62 33; G S Parenth [] 62 34; O S "," 62 36; G S Parenth [] 62 38; O S ">" 62 40]) (S 62 42) [(SExpr (ETry [] (ECall [] (EPath [] (mk_path false [mk_seg "hoge" [] (S 63 17)])) (S 63 21) [] []) (S 63 23)) (Some (S 63 24))); (SExpr (ECall [] (EPath [] (mk_path false [mk_seg "Err" [] (S 65 17)])) (S 65 20) [(ETuple [] (S 65 21) [] [])] []) None)])] []])) []); (TIMacro [] (Mac (mk_path false [mk_seg "id" [] (S 69 9)]) Brace (S 69 13) [O S "#" 70 13; G S Bracket [I S "allow" 70 15; G S Parenth [I S "unused" 70 21] 70 20] 70 14; I S "fn" 71 13; I S "inner" 71 16; G S Parenth [] 71 21; O S "-" 71 24; O S ">" 71 25; I S "Result" 71 27; O S "<" 71 33; G S Parenth [] 71 34; O S "," 71 36; G S Parenth [] 71 38; O S ">" 71 40; G S Brace [O S "#" 72 17; G S Bracket [I S "hooq" 72 19; O S ":" 72 23; O S ":" 72 24; I S "tag" 72 25; O S "=" 72 29; L S (LStr "inner") 72 31] 72 18; I S "hoge" 73 17; G S Parenth [] 73 21; O S "?" 73 23; O S ";" 73 24; I S "Err" 75 17; G S Parenth [G S Parenth [] 75 21] 75 20] 71 42] (Some [VFile [] [(IFn [mk_attr false (S 70 13) (MList (mk_path false [mk_seg "allow" [] (S 70 15)]) Parenth [I S "unused" 70 21] (S 70 20))] [] (mk_sig "inner" (RetPath (mk_path false [mk_seg "Result" [O S "<" 71 33; G S Parenth [] 71 34; O S "," 71 36; G S Parenth [] 71 38; O S ">" 71 40] (S 71 27)])) [I S "fn" 71 13; I S "inner" 71 16; G S Parenth [] 71 21; O S "-" 71 24; O S ">" 71 25; I S "Result" 71 27; O S "<" 71 33; G S Parenth [] 71 34; O S "," 71 36; G S Parenth [] 71 38; O S ">" 71 40]) (S 71 42) [(SExpr (ETry [mk_attr false (S 72 17) (MNameValue (mk_path false [mk_seg "hooq" [] (S 72 19); mk_seg "tag" [] (S 72 25)]) (VStr "inner" (S 72 31)))] (ECall [] (EPath [] (mk_path false [mk_seg "hoge" [] (S 73 17)])) (S 73 21) [] []) (S 73 23)) (Some (S 73 24))); (SExpr (ECall [] (EPath [] (mk_path false [mk_seg "Err" [] (S 75 17)])) (S 75 20) [(ETuple [] (S 75 21) [] [])] []) None)])] []])) [])])]).
Definition args_walker_item_trait_0 : list meta := let S := at_ "hooq-macros/tests/walker/item/trait.rs" in [].
Definition rec_walker_item_trait_0 : list string :=
  ["mod tmp { use util_macros : : id ; # [ allow ( unused ) ] fn hoge ( ) - > Result < ( ) , ( ) > { Err ( ( ) ) . inspect ( | _ | { { : : std : : io : :";
   "_print ( format_args ! ( ""tag:\s{0}\n"" , ""(no\stag)"" ) ) ; } ; } ) } pub trait Trit { const _CONST_VAL : usize = { fn _f ( ) - > Result < ( ) , ( ) >";
   "{ hoge ( ) . inspect ( | _ | { { : : std : : io : : _print ( format_args ! ( ""tag:\s{0}\n"" , ""inner\sfunc"" ) ) ; } ; } ) ? ; hoge ( ) . inspect ( | _";
   "| { { : : std : : io : : _print ( format_args ! ( ""tag:\s{0}\n"" , ""inner\sfunc"" ) ) ; } ; } ) } 10 } ; fn g ( ) - > Result < ( ) , ( ) > { hoge ( ) .";
   "inspect ( | _ | { { : : std : : io : : _print ( format_args ! ( ""tag:\s{0}\n"" , ""related\sfunction"" ) ) ; } ; } ) ? ; Err ( ( ) ) . inspect ( | _ | {";
   "{ : : std : : io : : _print ( format_args ! ( ""tag:\s{0}\n"" , ""related\sfunction"" ) ) ; } ; } ) } fn h ( ) - > bool { true } # [ allow ( unused ) ] fn";
   "i ( & self ) - > Result < ( ) , ( ) > { let res = Err ( ( ) ) ; hoge ( ) . inspect ( | _ | { { : : std : : io : : _print ( format_args ! (";
   """tag:\s{0}\n"" , ""method"" ) ) ; } ; } ) ? ; res . inspect ( | _ | { { : : std : : io : : _print ( format_args ! ( ""tag:\s{0}\n"" , ""method"" ) ) ; } ; }";
   ") } # [ allow ( unused ) ] fn j ( & self ) - > bool { true } # [ allow ( unused ) ] fn outer ( ) - > Result < ( ) , ( ) > { hoge ( ) . inspect ( | _ |";
   "{ { : : std : : io : : _print ( format_args ! ( ""tag:\s{0}\n"" , ""outer"" ) ) ; } ; } ) ? ; Err ( ( ) ) . inspect ( | _ | { { : : std : : io : : _print";
   "( format_args ! ( ""tag:\s{0}\n"" , ""outer"" ) ) ; } ; } ) } # [ allow ( unused ) ] fn inner ( ) - > Result < ( ) , ( ) > { hoge ( ) . inspect ( | _ | {";
   "{ : : std : : io : : _print ( format_args ! ( ""tag:\s{0}\n"" , ""inner"" ) ) ; } ; } ) ? ; Err ( ( ) ) . inspect ( | _ | { { : : std : : io : : _print (";
   "format_args ! ( ""tag:\s{0}\n"" , ""(no\stag)"" ) ) ; } ; } ) } } }"].
(** mod tmp *)
Example recorded_walker_item_trait_0 : expanded su_walker_item_trait args_walker_item_trait_0 it_walker_item_trait_0 = words rec_walker_item_trait_0.
Proof. vm_compute. reflexivity. Qed.
(** ** hooq-macros/tests/walker/stmt/expr.rs *)
Definition doc_walker_stmt_expr : list (string * ftable) := [].
Definition texts_walker_stmt_expr : list (string * list tt) := let S := at_ "" in [].
Definition strs_walker_stmt_expr : list (string * string) :=
  [("beep", "beep
");
   ("tag : { 0 }", "tag: {0}
")].
Definition ends_walker_stmt_expr : list (N * N * (N * N * string)) :=
  [(3, 5, (3, 7, "")); (3, 24, (3, 26, "")); (3, 28, (5, 2, "")); (4, 7, (4, 13, "")); (7, 5, (7, 7, "")); (7, 24, (7, 26, "")); (7, 28, (9, 2, "")); (8, 7, (8, 14, "")); (11, 2, (11, 8, "")); (12, 2, (14, 5, "")); (12, 15, (14, 4, "")); (12, 24, (14, 3, "")); (12, 29, (14, 2, "")); (13, 13, (13, 30, "")); (13, 14, (13, 23, """tag: {}""")); (15, 2, (15, 39, "")); (15, 25, (15, 38, "")); (15, 26, (15, 30, """Ok""")); (15, 32, (15, 37, """Err""")); (16, 8, (16, 10, "")); (16, 21, (16, 23, "")); (16, 25, (16, 27, "")); (16, 29, (39, 2, "")); (17, 6, (17, 29, "")); (17, 19, (17, 28, """closure""")); (18, 16, (21, 6, "")); (19, 10, (19, 31, "")); (19, 23, (19, 30, """inner""")); (20, 12, (20, 16, "")); (20, 13, (20, 15, "")); (23, 6, (23, 31, "")); (23, 19, (23, 30, """closure 2""")); (24, 16, (28, 6, "")); (25, 17, (25, 25, "")); (25, 18, (25, 24, """beep""")); (30, 6, (30, 44, "")); (30, 19, (30, 43, """in eq binary ops exprs""")); (31, 5, (33, 6, "")); (32, 18, (32, 20, "")); (32, 26, (32, 28, "")); (35, 14, (35, 16, "")); (37, 6, (37, 31, "")); (37, 19, (37, 30, """tail expr""")); (38, 6, (38, 8, "")); (41, 2, (41, 8, "")); (42, 8, (42, 10, "")); (42, 11, (44, 2, "")); (43, 9, (43, 11, "")); (43, 22, (43, 24, ""))].
Definition su_walker_stmt_expr : setup := mk_setup (mk_features false false true false false "hooq") doc_walker_stmt_expr texts_walker_stmt_expr strs_walker_stmt_expr [] ends_walker_stmt_expr "expr".
Definition it_walker_stmt_expr_0 : item := let S := at_ "hooq-macros/tests/walker/stmt/expr.rs" in
  (IFn [mk_attr false (S 12 1) (MList (mk_path false [mk_seg "hooq" [] (S 12 3); mk_seg "method" [] (S 12 9)]) Parenth [O S "." 12 16; I S "inspect" 12 17; G S Parenth [O S "|" 12 25; I S "_" 12 26; O S "|" 12 27; G S Brace [I S "println" 13 5; O S "!" 13 12; G S Parenth [L S (LStr "tag: {}") 13 14; O S "," 13 23; O S "$" 13 25; I S "tag" 13 26] 13 13; O S ";" 13 30] 12 29] 12 24] (S 12 15)); mk_attr false (S 15 1) (MList (mk_path false [mk_seg "hooq" [] (S 15 3); mk_seg "tail_expr_idents" [] (S 15 9)]) Parenth [L S (LStr "Ok") 15 26; O S "," 15 30; L S (LStr "Err") 15 32] (S 15 25))] [] (mk_sig "func" (RetPath (mk_path false [mk_seg "Result" [O S "<" 16 20; G S Parenth [] 16 21; O S "," 16 23; G S Parenth [] 16 25; O S ">" 16 27] (S 16 14)])) [I S "fn" 16 1; I S "func" 16 4; G S Parenth [] 16 8; O S "-" 16 11; O S ">" 16 12; I S "Result" 16 14; O S "<" 16 20; G S Parenth [] 16 21; O S "," 16 23; G S Parenth [] 16 25; O S ">" 16 27]) (S 16 29) [(SLocalInit [mk_attr false (S 17 5) (MNameValue (mk_path false [mk_seg "hooq" [] (S 17 7); mk_seg "tag" [] (S 17 13)]) (VStr "closure" (S 17 19)))] [I S "let" 18 5; I S "f" 18 9; O S "=" 18 11] (EClosure [] [O S "|" 18 13; O S "|" 18 14] RetNone (EBlock [] [] (S 18 16) [(SExpr (ECall [mk_attr false (S 19 9) (MNameValue (mk_path false [mk_seg "hooq" [] (S 19 11); mk_seg "tag" [] (S 19 17)]) (VStr "inner" (S 19 23)))] (EPath [] (mk_path false [mk_seg "Err" [] (S 20 9)])) (S 20 12) [(ETuple [] (S 20 13) [] [])] []) None)])) [] None [O S ";" 21 6]); (SLocalInit [mk_attr false (S 23 5) (MNameValue (mk_path false [mk_seg "hooq" [] (S 23 7); mk_seg "tag" [] (S 23 13)]) (VStr "closure 2" (S 23 19)))] [I S "let" 24 5; I S "g" 24 9; O S "=" 24 11] (EClosure [] [O S "|" 24 13; O S "|" 24 14] RetNone (EBlock [] [] (S 24 16) [(SMacro [] (Mac (mk_path false [mk_seg "println" [] (S 25 9)]) Parenth (S 25 17) [L S (LStr "beep") 25 18] (Some [VExpr (ELit [] (LStr "beep") (S 25 18)) []])) [O S ";" 25 25]); (SExpr (EPath [] (mk_path false [mk_seg "true" [] (S 27 9)])) None)])) [] None [O S ";" 28 6]); (SExpr (EBlock [mk_attr false (S 30 5) (MNameValue (mk_path false [mk_seg "hooq" [] (S 30 7); mk_seg "tag" [] (S 30 13)]) (VStr "in eq binary ops exprs" (S 30 19)))] [] (S 31 5) [(SLocalInit [] [I S "let" 32 9; I S "_" 32 13; O S "=" 32 15] (EBinary [] (ETry [] (ECall [] (EPath [] (mk_path false [mk_seg "a" [] (S 32 17)])) (S 32 18) [] []) (S 32 20)) [O S "=" 32 22; O S "=" 32 23] (ETry [] (ECall [] (EPath [] (mk_path false [mk_seg "b" [] (S 32 25)])) (S 32 26) [] []) (S 32 28))) [] None [O S ";" 32 29])]) None); (SLocalInit [] [I S "let" 35 5; I S "_" 35 9; O S "=" 35 11] (ECall [] (EPath [] (mk_path false [mk_seg "g" [] (S 35 13)])) (S 35 14) [] []) [] None [O S ";" 35 16]); (SExpr (ECall [mk_attr false (S 37 5) (MNameValue (mk_path false [mk_seg "hooq" [] (S 37 7); mk_seg "tag" [] (S 37 13)]) (VStr "tail expr" (S 37 19)))] (EPath [] (mk_path false [mk_seg "f" [] (S 38 5)])) (S 38 6) [] []) None)]).
Definition args_walker_stmt_expr_0 : list meta := let S := at_ "hooq-macros/tests/walker/stmt/expr.rs" in [].
Definition rec_walker_stmt_expr_0 : list string :=
  ["fn func ( ) - > Result < ( ) , ( ) > { let f = | | Err ( ( ) ) . inspect ( | _ | { { : : std : : io : : _print ( format_args ! ( ""tag:\s{0}\n"" ,";
   """inner"" ) ) ; } ; } ) ; let g = | | { { : : std : : io : : _print ( format_args ! ( ""beep\n"" ) ) ; } ; true } ; { let _ = a ( ) . inspect ( | _ | { {";
   ": : std : : io : : _print ( format_args ! ( ""tag:\s{0}\n"" , ""in\seq\sbinary\sops\sexprs"" ) ) ; } ; } ) ? = = b ( ) . inspect ( | _ | { { : : std : :";
   "io : : _print ( format_args ! ( ""tag:\s{0}\n"" , ""in\seq\sbinary\sops\sexprs"" ) ) ; } ; } ) ? ; } let _ = g ( ) ; f ( ) . inspect ( | _ | { { : : std :";
   ": io : : _print ( format_args ! ( ""tag:\s{0}\n"" , ""tail\sexpr"" ) ) ; } ; } ) }"].
(** func *)
Example recorded_walker_stmt_expr_0 : expanded su_walker_stmt_expr args_walker_stmt_expr_0 it_walker_stmt_expr_0 = words rec_walker_stmt_expr_0.
Proof. vm_compute. reflexivity. Qed.
(** ** hooq-macros/tests/walker/stmt/item.rs *)
Definition doc_walker_stmt_item : list (string * ftable) := [].
Definition texts_walker_stmt_item : list (string * list tt) := let S := at_ "" in [].
Definition strs_walker_stmt_item : list (string * string) :=
  [("( no tag )", "(no tag)");
   ("tag : { 0 }", "tag: {0}
")].
Definition ends_walker_stmt_item : list (N * N * (N * N * string)) :=
  [(3, 2, (3, 8, "")); (4, 2, (6, 5, "")); (4, 15, (6, 4, "")); (4, 24, (6, 3, "")); (4, 29, (6, 2, "")); (5, 13, (5, 30, "")); (5, 14, (5, 23, """tag: {}""")); (7, 2, (7, 26, "")); (7, 15, (7, 25, """(no tag)""")); (8, 8, (8, 10, "")); (8, 21, (8, 23, "")); (8, 25, (8, 27, "")); (8, 29, (17, 2, "")); (9, 6, (9, 26, "")); (9, 19, (9, 25, """func""")); (10, 9, (10, 11, "")); (10, 22, (10, 24, "")); (10, 26, (10, 28, "")); (10, 30, (12, 6, "")); (11, 12, (11, 16, "")); (11, 13, (11, 15, "")); (14, 6, (14, 8, "")); (16, 8, (16, 12, "")); (16, 9, (16, 11, "")); (19, 2, (19, 8, "")); (20, 8, (20, 10, "")); (20, 11, (22, 2, "")); (21, 9, (21, 11, "")); (21, 22, (21, 24, ""))].
Definition su_walker_stmt_item : setup := mk_setup (mk_features false false true false false "hooq") doc_walker_stmt_item texts_walker_stmt_item strs_walker_stmt_item [] ends_walker_stmt_item "item".
Definition it_walker_stmt_item_0 : item := let S := at_ "hooq-macros/tests/walker/stmt/item.rs" in
  (IFn [mk_attr false (S 4 1) (MList (mk_path false [mk_seg "hooq" [] (S 4 3); mk_seg "method" [] (S 4 9)]) Parenth [O S "." 4 16; I S "inspect" 4 17; G S Parenth [O S "|" 4 25; I S "_" 4 26; O S "|" 4 27; G S Brace [I S "println" 5 5; O S "!" 5 12; G S Parenth [L S (LStr "tag: {}") 5 14; O S "," 5 23; O S "$" 5 25; I S "tag" 5 26] 5 13; O S ";" 5 30] 4 29] 4 24] (S 4 15)); mk_attr false (S 7 1) (MNameValue (mk_path false [mk_seg "hooq" [] (S 7 3); mk_seg "tag" [] (S 7 9)]) (VStr "(no tag)" (S 7 15)))] [] (mk_sig "func" (RetPath (mk_path false [mk_seg "Result" [O S "<" 8 20; G S Parenth [] 8 21; O S "," 8 23; G S Parenth [] 8 25; O S ">" 8 27] (S 8 14)])) [I S "fn" 8 1; I S "func" 8 4; G S Parenth [] 8 8; O S "-" 8 11; O S ">" 8 12; I S "Result" 8 14; O S "<" 8 20; G S Parenth [] 8 21; O S "," 8 23; G S Parenth [] 8 25; O S ">" 8 27]) (S 8 29) [(SItem (IFn [mk_attr false (S 9 5) (MNameValue (mk_path false [mk_seg "hooq" [] (S 9 7); mk_seg "tag" [] (S 9 13)]) (VStr "func" (S 9 19)))] [] (mk_sig "f" (RetPath (mk_path false [mk_seg "Result" [O S "<" 10 21; G S Parenth [] 10 22; O S "," 10 24; G S Parenth [] 10 26; O S ">" 10 28] (S 10 15)])) [I S "fn" 10 5; I S "f" 10 8; G S Parenth [] 10 9; O S "-" 10 12; O S ">" 10 13; I S "Result" 10 15; O S "<" 10 21; G S Parenth [] 10 22; O S "," 10 24; G S Parenth [] 10 26; O S ">" 10 28]) (S 10 30) [(SExpr (ECall [] (EPath [] (mk_path false [mk_seg "Err" [] (S 11 9)])) (S 11 12) [(ETuple [] (S 11 13) [] [])] []) None)])); (SExpr (ETry [] (ECall [] (EPath [] (mk_path false [mk_seg "f" [] (S 14 5)])) (S 14 6) [] []) (S 14 8)) (Some (S 14 9))); (SExpr (ECall [] (EPath [] (mk_path false [mk_seg "Err" [] (S 16 5)])) (S 16 8) [(ETuple [] (S 16 9) [] [])] []) None)]).
Definition args_walker_stmt_item_0 : list meta := let S := at_ "hooq-macros/tests/walker/stmt/item.rs" in [].
Definition rec_walker_stmt_item_0 : list string :=
  ["fn func ( ) - > Result < ( ) , ( ) > { fn f ( ) - > Result < ( ) , ( ) > { Err ( ( ) ) . inspect ( | _ | { { : : std : : io : : _print ( format_args !";
   "( ""tag:\s{0}\n"" , ""func"" ) ) ; } ; } ) } f ( ) . inspect ( | _ | { { : : std : : io : : _print ( format_args ! ( ""tag:\s{0}\n"" , ""(no\stag)"" ) ) ; } ;";
   "} ) ? ; Err ( ( ) ) . inspect ( | _ | { { : : std : : io : : _print ( format_args ! ( ""tag:\s{0}\n"" , ""(no\stag)"" ) ) ; } ; } ) }"].
(** func *)
Example recorded_walker_stmt_item_0 : expanded su_walker_stmt_item args_walker_stmt_item_0 it_walker_stmt_item_0 = words rec_walker_stmt_item_0.
Proof. vm_compute. reflexivity. Qed.
(** ** hooq-macros/tests/walker/stmt/local.rs *)
Definition doc_walker_stmt_local : list (string * ftable) := [].
Definition texts_walker_stmt_local : list (string * list tt) := let S := at_ "" in [].
Definition strs_walker_stmt_local : list (string * string) :=
  [("( no tag )", "(no tag)");
   ("tag : { 0 }", "tag: {0}
")].
Definition ends_walker_stmt_local : list (N * N * (N * N * string)) :=
  [(3, 2, (3, 8, "")); (4, 2, (6, 5, "")); (4, 15, (6, 4, "")); (4, 24, (6, 3, "")); (4, 29, (6, 2, "")); (5, 13, (5, 30, "")); (5, 14, (5, 23, """tag: {}""")); (7, 2, (7, 26, "")); (7, 15, (7, 25, """(no tag)""")); (8, 2, (8, 39, "")); (8, 25, (8, 38, "")); (8, 26, (8, 30, """Ok""")); (8, 32, (8, 37, """Err""")); (9, 8, (9, 10, "")); (9, 21, (9, 23, "")); (9, 25, (9, 27, "")); (9, 29, (25, 2, "")); (10, 6, (10, 45, "")); (10, 12, (10, 44, "")); (11, 14, (11, 35, "")); (11, 27, (11, 34, """outer""")); (12, 5, (15, 7, "")); (12, 9, (15, 6, "")); (13, 10, (13, 31, "")); (13, 23, (13, 30, """inner""")); (14, 11, (14, 17, "")); (15, 7, (15, 9, "")); (19, 6, (19, 26, "")); (19, 19, (19, 25, """else""")); (20, 20, (22, 6, "")); (21, 19, (21, 23, "")); (21, 20, (21, 22, "")); (24, 8, (24, 12, "")); (24, 9, (24, 11, "")); (27, 2, (27, 8, "")); (28, 8, (28, 10, "")); (28, 11, (30, 2, "")); (29, 9, (29, 11, "")); (29, 22, (29, 24, ""))].
Definition su_walker_stmt_local : setup := mk_setup (mk_features false false true false false "hooq") doc_walker_stmt_local texts_walker_stmt_local strs_walker_stmt_local [] ends_walker_stmt_local "local".
Definition it_walker_stmt_local_0 : item := let S := at_ "hooq-macros/tests/walker/stmt/local.rs" in
  (IFn [mk_attr false (S 4 1) (MList (mk_path false [mk_seg "hooq" [] (S 4 3); mk_seg "method" [] (S 4 9)]) Parenth [O S "." 4 16; I S "inspect" 4 17; G S Parenth [O S "|" 4 25; I S "_" 4 26; O S "|" 4 27; G S Brace [I S "println" 5 5; O S "!" 5 12; G S Parenth [L S (LStr "tag: {}") 5 14; O S "," 5 23; O S "$" 5 25; I S "tag" 5 26] 5 13; O S ";" 5 30] 4 29] 4 24] (S 4 15)); mk_attr false (S 7 1) (MNameValue (mk_path false [mk_seg "hooq" [] (S 7 3); mk_seg "tag" [] (S 7 9)]) (VStr "(no tag)" (S 7 15))); mk_attr false (S 8 1) (MList (mk_path false [mk_seg "hooq" [] (S 8 3); mk_seg "tail_expr_idents" [] (S 8 9)]) Parenth [L S (LStr "Ok") 8 26; O S "," 8 30; L S (LStr "Err") 8 32] (S 8 25))] [] (mk_sig "func" (RetPath (mk_path false [mk_seg "Result" [O S "<" 9 20; G S Parenth [] 9 21; O S "," 9 23; G S Parenth [] 9 25; O S ">" 9 27] (S 9 14)])) [I S "fn" 9 1; I S "func" 9 4; G S Parenth [] 9 8; O S "-" 9 11; O S ">" 9 12; I S "Result" 9 14; O S "<" 9 20; G S Parenth [] 9 21; O S "," 9 23; G S Parenth [] 9 25; O S ">" 9 27]) (S 9 29) [(SLocalInit [mk_attr false (S 10 5) (MList (mk_path false [mk_seg "allow" [] (S 10 7)]) Parenth [I S "clippy" 10 13; O S ":" 10 19; O S ":" 10 20; I S "redundant_closure_call" 10 21] (S 10 12))] [I S "let" 11 5; I S "_" 11 9; O S "=" 11 11] (ETry [mk_attr false (S 11 13) (MNameValue (mk_path false [mk_seg "hooq" [] (S 11 15); mk_seg "tag" [] (S 11 21)]) (VStr "outer" (S 11 27)))] (ECall [] (EParen [] (S 12 5) (EClosure [] [O S "|" 12 6; O S "|" 12 7] RetNone (EBlock [] [] (S 12 9) [(SExpr (ECall [mk_attr false (S 13 9) (MNameValue (mk_path false [mk_seg "hooq" [] (S 13 11); mk_seg "tag" [] (S 13 17)]) (VStr "inner" (S 13 23)))] (EPath [] (mk_path false [mk_seg "Ok" [] (S 14 9)])) (S 14 11) [(EPath [] (mk_path false [mk_seg "true" [] (S 14 12)]))] []) None)]))) (S 15 7) [] []) (S 15 9)) [] None [O S ";" 15 10]); (SLocalInit [] [I S "let" 17 5; I S "n" 17 9; O S "=" 17 11] (ELit [] (LOther "1") (S 17 13)) [] None [O S ";" 17 14]); (SLocalInit [mk_attr false (S 19 5) (MNameValue (mk_path false [mk_seg "hooq" [] (S 19 7); mk_seg "tag" [] (S 19 13)]) (VStr "else" (S 19 19)))] [I S "let" 20 5; L S (LOther "1") 20 9; O S "=" 20 11] (EPath [] (mk_path false [mk_seg "n" [] (S 20 13)])) [I S "else" 20 15] (Some (EBlock [] [] (S 20 20) [(SExpr (EReturn [] (S 21 9) (Some (ECall [] (EPath [] (mk_path false [mk_seg "Err" [] (S 21 16)])) (S 21 19) [(ETuple [] (S 21 20) [] [])] []))) (Some (S 21 23)))])) [O S ";" 22 6]); (SExpr (ECall [] (EPath [] (mk_path false [mk_seg "Err" [] (S 24 5)])) (S 24 8) [(ETuple [] (S 24 9) [] [])] []) None)]).
Definition args_walker_stmt_local_0 : list meta := let S := at_ "hooq-macros/tests/walker/stmt/local.rs" in [].
Definition rec_walker_stmt_local_0 : list string :=
  ["fn func ( ) - > Result < ( ) , ( ) > { # [ allow ( clippy : : redundant_closure_call ) ] let _ = ( | | Ok ( true ) . inspect ( | _ | { { : : std : :";
   "io : : _print ( format_args ! ( ""tag:\s{0}\n"" , ""inner"" ) ) ; } ; } ) ) ( ) . inspect ( | _ | { { : : std : : io : : _print ( format_args ! (";
   """tag:\s{0}\n"" , ""outer"" ) ) ; } ; } ) ? ; let n = 1 ; let 1 = n else { return Err ( ( ) ) . inspect ( | _ | { { : : std : : io : : _print (";
   "format_args ! ( ""tag:\s{0}\n"" , ""else"" ) ) ; } ; } ) ; } ; Err ( ( ) ) . inspect ( | _ | { { : : std : : io : : _print ( format_args ! ( ""tag:\s{0}\n""";
   ", ""(no\stag)"" ) ) ; } ; } ) }"].
(** func *)
Example recorded_walker_stmt_local_0 : expanded su_walker_stmt_local args_walker_stmt_local_0 it_walker_stmt_local_0 = words rec_walker_stmt_local_0.
Proof. vm_compute. reflexivity. Qed.
(** ** hooq-macros/tests/walker/stmt/macro.rs *)
Definition doc_walker_stmt_macro : list (string * ftable) := [].
Definition texts_walker_stmt_macro : list (string * list tt) := let S := at_ "" in [].
Definition strs_walker_stmt_macro : list (string * string) :=
  [("( no tag )", "(no tag)");
   ("Err ( ( ) )", "Err(())");
   ("enresult ( 10 ) ?", "enresult(10) ?");
   ("enresult ( 20 ) ?", "enresult(20) ?");
   ("tag : { 0 } , expr : { 1 }", "tag: {0}, expr: {1}
");
   ("{ 0 }", "{0}
")].
Definition ends_walker_stmt_macro : list (N * N * (N * N * string)) :=
  [(3, 2, (3, 8, "")); (4, 15, (4, 21, "")); (4, 35, (4, 37, "")); (4, 39, (6, 2, "")); (5, 7, (5, 10, "")); (8, 2, (8, 8, "")); (9, 2, (11, 5, "")); (9, 15, (11, 4, "")); (9, 24, (11, 3, "")); (9, 29, (11, 2, "")); (10, 13, (10, 61, "")); (10, 14, (10, 33, """tag: {}, expr: {}""")); (10, 51, (10, 60, "")); (12, 2, (12, 26, "")); (12, 15, (12, 25, """(no tag)""")); (13, 8, (13, 10, "")); (13, 21, (13, 23, "")); (13, 25, (13, 27, "")); (13, 29, (24, 2, "")); (14, 6, (14, 27, "")); (14, 19, (14, 26, """outer""")); (15, 13, (15, 34, "")); (15, 14, (15, 18, """{}""")); (15, 28, (15, 32, "")); (17, 13, (21, 6, "")); (18, 9, (18, 13, """{}""")); (19, 10, (19, 31, "")); (19, 23, (19, 30, """inner""")); (20, 17, (20, 21, "")); (23, 8, (23, 12, "")); (23, 9, (23, 11, "")); (26, 2, (26, 8, "")); (27, 8, (27, 10, "")); (27, 11, (29, 2, "")); (28, 9, (28, 11, "")); (28, 22, (28, 24, ""))].
Definition su_walker_stmt_macro : setup := mk_setup (mk_features false false true false false "hooq") doc_walker_stmt_macro texts_walker_stmt_macro strs_walker_stmt_macro [] ends_walker_stmt_macro "macro".
Definition it_walker_stmt_macro_0 : item := let S := at_ "hooq-macros/tests/walker/stmt/macro.rs" in
  (IFn [] [] (mk_sig "enresult" (RetPath (mk_path false [mk_seg "Result" [O S "<" 4 31; I S "T" 4 32; O S "," 4 33; G S Parenth [] 4 35; O S ">" 4 37] (S 4 25)])) [I S "fn" 4 1; I S "enresult" 4 4; O S "<" 4 12; I S "T" 4 13; O S ">" 4 14; G S Parenth [I S "v" 4 16; O S ":" 4 17; I S "T" 4 19] 4 15; O S "-" 4 22; O S ">" 4 23; I S "Result" 4 25; O S "<" 4 31; I S "T" 4 32; O S "," 4 33; G S Parenth [] 4 35; O S ">" 4 37]) (S 4 39) [(SExpr (ECall [] (EPath [] (mk_path false [mk_seg "Ok" [] (S 5 5)])) (S 5 7) [(EPath [] (mk_path false [mk_seg "v" [] (S 5 8)]))] []) None)]).
Definition args_walker_stmt_macro_0 : list meta := let S := at_ "hooq-macros/tests/walker/stmt/macro.rs" in [].
Definition rec_walker_stmt_macro_0 : list string :=
  ["fn enresult < T > ( v : T ) - > Result < T , ( ) > { Ok ( v ) }"].
Definition it_walker_stmt_macro_1 : item := let S := at_ "hooq-macros/tests/walker/stmt/macro.rs" in
  (IFn [mk_attr false (S 9 1) (MList (mk_path false [mk_seg "hooq" [] (S 9 3); mk_seg "method" [] (S 9 9)]) Parenth [O S "." 9 16; I S "inspect" 9 17; G S Parenth [O S "|" 9 25; I S "_" 9 26; O S "|" 9 27; G S Brace [I S "println" 10 5; O S "!" 10 12; G S Parenth [L S (LStr "tag: {}, expr: {}") 10 14; O S "," 10 33; O S "$" 10 35; I S "tag" 10 36; O S "," 10 39; I S "stringify" 10 41; O S "!" 10 50; G S Parenth [O S "$" 10 52; I S "source" 10 53] 10 51] 10 13; O S ";" 10 61] 9 29] 9 24] (S 9 15)); mk_attr false (S 12 1) (MNameValue (mk_path false [mk_seg "hooq" [] (S 12 3); mk_seg "tag" [] (S 12 9)]) (VStr "(no tag)" (S 12 15)))] [] (mk_sig "func" (RetPath (mk_path false [mk_seg "Result" [O S "<" 13 20; G S Parenth [] 13 21; O S "," 13 23; G S Parenth [] 13 25; O S ">" 13 27] (S 13 14)])) [I S "fn" 13 1; I S "func" 13 4; G S Parenth [] 13 8; O S "-" 13 11; O S ">" 13 12; I S "Result" 13 14; O S "<" 13 20; G S Parenth [] 13 21; O S "," 13 23; G S Parenth [] 13 25; O S ">" 13 27]) (S 13 29) [(SMacro [mk_attr false (S 14 5) (MNameValue (mk_path false [mk_seg "hooq" [] (S 14 7); mk_seg "tag" [] (S 14 13)]) (VStr "outer" (S 14 19)))] (Mac (mk_path false [mk_seg "println" [] (S 15 5)]) Parenth (S 15 13) [L S (LStr "{}") 15 14; O S "," 15 18; I S "enresult" 15 20; G S Parenth [L S (LOther "10") 15 29] 15 28; O S "?" 15 32] (Some [VExpr (ELit [] (LStr "{}") (S 15 14)) [O S "," 15 18]; VExpr (ETry [] (ECall [] (EPath [] (mk_path false [mk_seg "enresult" [] (S 15 20)])) (S 15 28) [(ELit [] (LOther "10") (S 15 29))] []) (S 15 32)) []])) [O S ";" 15 34]); (SMacro [] (Mac (mk_path false [mk_seg "println" [] (S 17 5)]) Parenth (S 17 13) [L S (LStr "{}") 18 9; O S "," 18 13; O S "#" 19 9; G S Bracket [I S "hooq" 19 11; O S ":" 19 15; O S ":" 19 16; I S "tag" 19 17; O S "=" 19 21; L S (LStr "inner") 19 23] 19 10; I S "enresult" 20 9; G S Parenth [L S (LOther "20") 20 18] 20 17; O S "?" 20 21] (Some [VExpr (ELit [] (LStr "{}") (S 18 9)) [O S "," 18 13]; VExpr (ETry [mk_attr false (S 19 9) (MNameValue (mk_path false [mk_seg "hooq" [] (S 19 11); mk_seg "tag" [] (S 19 17)]) (VStr "inner" (S 19 23)))] (ECall [] (EPath [] (mk_path false [mk_seg "enresult" [] (S 20 9)])) (S 20 17) [(ELit [] (LOther "20") (S 20 18))] []) (S 20 21)) []])) [O S ";" 21 6]); (SExpr (ECall [] (EPath [] (mk_path false [mk_seg "Err" [] (S 23 5)])) (S 23 8) [(ETuple [] (S 23 9) [] [])] []) None)]).
Definition args_walker_stmt_macro_1 : list meta := let S := at_ "hooq-macros/tests/walker/stmt/macro.rs" in [].
Definition rec_walker_stmt_macro_1 : list string :=
  ["fn func ( ) - > Result < ( ) , ( ) > { { : : std : : io : : _print ( format_args ! ( ""{0}\n"" , enresult ( 10 ) . inspect ( | _ | { { : : std : : io :";
   ": _print ( format_args ! ( ""tag:\s{0},\sexpr:\s{1}\n"" , ""outer"" , ""enresult(10)\s?"" ) ) ; } ; } ) ? ) ) ; } ; { : : std : : io : : _print (";
   "format_args ! ( ""{0}\n"" , enresult ( 20 ) . inspect ( | _ | { { : : std : : io : : _print ( format_args ! ( ""tag:\s{0},\sexpr:\s{1}\n"" , ""inner"" ,";
   """enresult(20)\s?"" ) ) ; } ; } ) ? ) ) ; } ; Err ( ( ) ) . inspect ( | _ | { { : : std : : io : : _print ( format_args ! ( ""tag:\s{0},\sexpr:\s{1}\n"" ,";
   """(no\stag)"" , ""Err(())"" ) ) ; } ; } ) }"].
(** enresult *)
Example recorded_walker_stmt_macro_0 : expanded su_walker_stmt_macro args_walker_stmt_macro_0 it_walker_stmt_macro_0 = words rec_walker_stmt_macro_0.
Proof. vm_compute. reflexivity. Qed.
(** func *)
Example recorded_walker_stmt_macro_1 : expanded su_walker_stmt_macro args_walker_stmt_macro_1 it_walker_stmt_macro_1 = words rec_walker_stmt_macro_1.
Proof. vm_compute. reflexivity. Qed.
