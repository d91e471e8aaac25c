(** Recorded expansions of the real macro: walker/expr.  Generated by conformance/gen.py.  *)
From Coq Require Import String Ascii Bool Arith NArith List.
From Verif Require Import Base Tokens Method Paths Context Flavor Attrs Syntax Conformance.
Import ListNotations.
Open Scope string_scope.
Open Scope list_scope.
Open Scope N_scope.

(** ** hooq-macros/tests/walker/expr/array.rs *)
Definition doc_walker_expr_array : list (string * ftable) := [].
Definition texts_walker_expr_array : list (string * list tt) := let S := at_ "" in [].
Definition strs_walker_expr_array : list (string * string) :=
  [("( no tag )", "(no tag)");
   ("tag : { 0 }", "tag: {0}
")].
Definition ends_walker_expr_array : list (N * N * (N * N * string)) :=
  [(3, 2, (3, 8, "")); (4, 8, (4, 10, "")); (4, 26, (4, 34, "")); (4, 36, (6, 2, "")); (5, 7, (5, 11, "")); (8, 2, (8, 8, "")); (9, 2, (11, 5, "")); (9, 15, (11, 4, "")); (9, 24, (11, 3, "")); (9, 29, (11, 2, "")); (10, 13, (10, 30, "")); (10, 14, (10, 23, """tag: {}""")); (12, 2, (12, 26, "")); (12, 15, (12, 25, """(no tag)""")); (13, 8, (13, 10, "")); (13, 21, (13, 23, "")); (13, 25, (13, 33, "")); (13, 35, (20, 2, "")); (14, 8, (19, 7, "")); (14, 9, (19, 6, "")); (15, 10, (15, 31, "")); (15, 23, (15, 30, """first""")); (16, 13, (16, 15, "")); (17, 10, (17, 32, "")); (17, 23, (17, 31, """second""")); (18, 13, (18, 15, "")); (22, 2, (22, 8, "")); (23, 8, (23, 10, "")); (23, 11, (25, 2, "")); (24, 9, (24, 11, "")); (24, 22, (24, 24, ""))].
Definition su_walker_expr_array : setup := mk_setup (mk_features false false true false false "hooq") doc_walker_expr_array texts_walker_expr_array strs_walker_expr_array [] ends_walker_expr_array "array".
Definition it_walker_expr_array_0 : item := let S := at_ "hooq-macros/tests/walker/expr/array.rs" in
  (IFn [] [] (mk_sig "hoge" (RetPath (mk_path false [mk_seg "Result" [O S "<" 4 20; I S "u32" 4 21; O S "," 4 24; G S Bracket [I S "u32" 4 27; O S ";" 4 30; L S (LOther "2") 4 32] 4 26; O S ">" 4 34] (S 4 14)])) [I S "fn" 4 1; I S "hoge" 4 4; G S Parenth [] 4 8; O S "-" 4 11; O S ">" 4 12; I S "Result" 4 14; O S "<" 4 20; I S "u32" 4 21; O S "," 4 24; G S Bracket [I S "u32" 4 27; O S ";" 4 30; L S (LOther "2") 4 32] 4 26; O S ">" 4 34]) (S 4 36) [(SExpr (ECall [] (EPath [] (mk_path false [mk_seg "Ok" [] (S 5 5)])) (S 5 7) [(ELit [] (LOther "10") (S 5 8))] []) None)]).
Definition args_walker_expr_array_0 : list meta := let S := at_ "hooq-macros/tests/walker/expr/array.rs" in [].
Definition rec_walker_expr_array_0 : list string :=
  ["fn hoge ( ) - > Result < u32 , [ u32 ; 2 ] > { Ok ( 10 ) }"].
Definition it_walker_expr_array_1 : item := let S := at_ "hooq-macros/tests/walker/expr/array.rs" in
  (IFn [mk_attr false (S 9 1) (MList (mk_path false [mk_seg "hooq" [] (S 9 3); mk_seg "method" [] (S 9 9)]) Parenth [O S "." 9 16; I S "inspect" 9 17; G S Parenth [O S "|" 9 25; I S "_" 9 26; O S "|" 9 27; G S Brace [I S "println" 10 5; O S "!" 10 12; G S Parenth [L S (LStr "tag: {}") 10 14; O S "," 10 23; O S "$" 10 25; I S "tag" 10 26] 10 13; O S ";" 10 30] 9 29] 9 24] (S 9 15)); mk_attr false (S 12 1) (MNameValue (mk_path false [mk_seg "hooq" [] (S 12 3); mk_seg "tag" [] (S 12 9)]) (VStr "(no tag)" (S 12 15)))] [] (mk_sig "func" (RetPath (mk_path false [mk_seg "Result" [O S "<" 13 20; G S Parenth [] 13 21; O S "," 13 23; G S Bracket [I S "u32" 13 26; O S ";" 13 29; L S (LOther "2") 13 31] 13 25; O S ">" 13 33] (S 13 14)])) [I S "fn" 13 1; I S "func" 13 4; G S Parenth [] 13 8; O S "-" 13 11; O S ">" 13 12; I S "Result" 13 14; O S "<" 13 20; G S Parenth [] 13 21; O S "," 13 23; G S Bracket [I S "u32" 13 26; O S ";" 13 29; L S (LOther "2") 13 31] 13 25; O S ">" 13 33]) (S 13 35) [(SExpr (ECall [] (EPath [] (mk_path false [mk_seg "Err" [] (S 14 5)])) (S 14 8) [(EArray [] (S 14 9) [(ETry [mk_attr false (S 15 9) (MNameValue (mk_path false [mk_seg "hooq" [] (S 15 11); mk_seg "tag" [] (S 15 17)]) (VStr "first" (S 15 23)))] (ECall [] (EPath [] (mk_path false [mk_seg "hoge" [] (S 16 9)])) (S 16 13) [] []) (S 16 15)); (ETry [mk_attr false (S 17 9) (MNameValue (mk_path false [mk_seg "hooq" [] (S 17 11); mk_seg "tag" [] (S 17 17)]) (VStr "second" (S 17 23)))] (ECall [] (EPath [] (mk_path false [mk_seg "hoge" [] (S 18 9)])) (S 18 13) [] []) (S 18 15))] [O S "," 16 16; O S "," 18 16])] []) None)]).
Definition args_walker_expr_array_1 : list meta := let S := at_ "hooq-macros/tests/walker/expr/array.rs" in [].
Definition rec_walker_expr_array_1 : list string :=
  ["fn func ( ) - > Result < ( ) , [ u32 ; 2 ] > { Err ( [ hoge ( ) . inspect ( | _ | { { : : std : : io : : _print ( format_args ! ( ""tag:\s{0}\n"" ,";
   """first"" ) ) ; } ; } ) ? , hoge ( ) . inspect ( | _ | { { : : std : : io : : _print ( format_args ! ( ""tag:\s{0}\n"" , ""second"" ) ) ; } ; } ) ? ] ) .";
   "inspect ( | _ | { { : : std : : io : : _print ( format_args ! ( ""tag:\s{0}\n"" , ""(no\stag)"" ) ) ; } ; } ) }"].
(** hoge *)
Example recorded_walker_expr_array_0 : expanded su_walker_expr_array args_walker_expr_array_0 it_walker_expr_array_0 = words rec_walker_expr_array_0.
Proof. vm_compute. reflexivity. Qed.
(** func *)
Example recorded_walker_expr_array_1 : expanded su_walker_expr_array args_walker_expr_array_1 it_walker_expr_array_1 = words rec_walker_expr_array_1.
Proof. vm_compute. reflexivity. Qed.
(** ** hooq-macros/tests/walker/expr/assign.rs *)
Definition doc_walker_expr_assign : list (string * ftable) := [].
Definition texts_walker_expr_assign : list (string * list tt) := let S := at_ "" in [].
Definition strs_walker_expr_assign : list (string * string) :=
  [("( no tag )", "(no tag)");
   ("{ 0 }", "{0}
")].
Definition ends_walker_expr_assign : list (N * N * (N * N * string)) :=
  [(3, 2, (3, 8, "")); (4, 8, (4, 18, "")); (4, 36, (4, 38, "")); (4, 40, (6, 2, "")); (5, 7, (5, 14, "")); (8, 2, (8, 8, "")); (9, 2, (11, 5, "")); (9, 15, (11, 4, "")); (9, 24, (11, 3, "")); (9, 29, (11, 2, "")); (10, 13, (10, 25, "")); (10, 14, (10, 18, """{}""")); (12, 2, (12, 26, "")); (12, 15, (12, 25, """(no tag)""")); (13, 8, (13, 10, "")); (13, 21, (13, 23, "")); (13, 25, (13, 27, "")); (13, 29, (30, 2, "")); (16, 13, (16, 16, "")); (20, 6, (20, 27, "")); (20, 19, (20, 26, """outer""")); (21, 6, (21, 37, "")); (21, 12, (21, 36, "")); (22, 13, (25, 6, "")); (23, 14, (23, 35, "")); (23, 27, (23, 34, """inner""")); (24, 13, (24, 16, "")); (29, 8, (29, 12, "")); (29, 9, (29, 11, "")); (32, 2, (32, 8, "")); (33, 8, (33, 10, "")); (33, 11, (35, 2, "")); (34, 9, (34, 11, "")); (34, 22, (34, 24, ""))].
Definition su_walker_expr_assign : setup := mk_setup (mk_features false false true false false "hooq") doc_walker_expr_assign texts_walker_expr_assign strs_walker_expr_assign [] ends_walker_expr_assign "assign".
Definition it_walker_expr_assign_0 : item := let S := at_ "hooq-macros/tests/walker/expr/assign.rs" in
  (IFn [] [] (mk_sig "hoge" (RetPath (mk_path false [mk_seg "Result" [O S "<" 4 28; I S "usize" 4 29; O S "," 4 34; G S Parenth [] 4 36; O S ">" 4 38] (S 4 22)])) [I S "fn" 4 1; I S "hoge" 4 4; G S Parenth [I S "v" 4 9; O S ":" 4 10; I S "usize" 4 12] 4 8; O S "-" 4 19; O S ">" 4 20; I S "Result" 4 22; O S "<" 4 28; I S "usize" 4 29; O S "," 4 34; G S Parenth [] 4 36; O S ">" 4 38]) (S 4 40) [(SExpr (ECall [] (EPath [] (mk_path false [mk_seg "Ok" [] (S 5 5)])) (S 5 7) [(EBinary [] (EPath [] (mk_path false [mk_seg "v" [] (S 5 8)])) [O S "*" 5 10] (ELit [] (LOther "2") (S 5 12)))] []) None)]).
Definition args_walker_expr_assign_0 : list meta := let S := at_ "hooq-macros/tests/walker/expr/assign.rs" in [].
Definition rec_walker_expr_assign_0 : list string :=
  ["fn hoge ( v : usize ) - > Result < usize , ( ) > { Ok ( v * 2 ) }"].
Definition it_walker_expr_assign_1 : item := let S := at_ "hooq-macros/tests/walker/expr/assign.rs" in
  (IFn [mk_attr false (S 9 1) (MList (mk_path false [mk_seg "hooq" [] (S 9 3); mk_seg "method" [] (S 9 9)]) Parenth [O S "." 9 16; I S "inspect" 9 17; G S Parenth [O S "|" 9 25; I S "_" 9 26; O S "|" 9 27; G S Brace [I S "println" 10 5; O S "!" 10 12; G S Parenth [L S (LStr "{}") 10 14; O S "," 10 18; O S "$" 10 20; I S "tag" 10 21] 10 13; O S ";" 10 25] 9 29] 9 24] (S 9 15)); mk_attr false (S 12 1) (MNameValue (mk_path false [mk_seg "hooq" [] (S 12 3); mk_seg "tag" [] (S 12 9)]) (VStr "(no tag)" (S 12 15)))] [] (mk_sig "func" (RetPath (mk_path false [mk_seg "Result" [O S "<" 13 20; G S Parenth [] 13 21; O S "," 13 23; G S Parenth [] 13 25; O S ">" 13 27] (S 13 14)])) [I S "fn" 13 1; I S "func" 13 4; G S Parenth [] 13 8; O S "-" 13 11; O S ">" 13 12; I S "Result" 13 14; O S "<" 13 20; G S Parenth [] 13 21; O S "," 13 23; G S Parenth [] 13 25; O S ">" 13 27]) (S 13 29) [(SLocal [] [I S "let" 14 5; I S "mut" 14 9; I S "x" 14 13] [O S ";" 14 14]); (SExpr (EAssign [] (EPath [] (mk_path false [mk_seg "x" [] (S 16 5)])) [O S "=" 16 7] (ETry [] (ECall [] (EPath [] (mk_path false [mk_seg "hoge" [] (S 16 9)])) (S 16 13) [(ELit [] (LOther "1") (S 16 14))] []) (S 16 16))) (Some (S 16 17))); (SLocalInit [] [I S "let" 18 5; I S "_" 18 9; O S "=" 18 11] (EPath [] (mk_path false [mk_seg "x" [] (S 18 13)])) [] None [O S ";" 18 14]); (SLocalInit [mk_attr false (S 20 5) (MNameValue (mk_path false [mk_seg "hooq" [] (S 20 7); mk_seg "tag" [] (S 20 13)]) (VStr "outer" (S 20 19))); mk_attr false (S 21 5) (MList (mk_path false [mk_seg "allow" [] (S 21 7)]) Parenth [I S "clippy" 21 13; O S ":" 21 19; O S ":" 21 20; I S "let_unit_value" 21 21] (S 21 12))] [I S "let" 22 5; I S "_" 22 9; O S "=" 22 11] (EBlock [] [] (S 22 13) [(SExpr (EAssign [] (EPath [] (mk_path false [mk_seg "x" [] (S 23 9)])) [O S "=" 23 11] (ETry [mk_attr false (S 23 13) (MNameValue (mk_path false [mk_seg "hooq" [] (S 23 15); mk_seg "tag" [] (S 23 21)]) (VStr "inner" (S 23 27)))] (ECall [] (EPath [] (mk_path false [mk_seg "hoge" [] (S 24 9)])) (S 24 13) [(ELit [] (LOther "2") (S 24 14))] []) (S 24 16))) None)]) [] None [O S ";" 25 6]); (SLocalInit [] [I S "let" 27 5; I S "_" 27 9; O S "=" 27 11] (EPath [] (mk_path false [mk_seg "x" [] (S 27 13)])) [] None [O S ";" 27 14]); (SExpr (ECall [] (EPath [] (mk_path false [mk_seg "Err" [] (S 29 5)])) (S 29 8) [(ETuple [] (S 29 9) [] [])] []) None)]).
Definition args_walker_expr_assign_1 : list meta := let S := at_ "hooq-macros/tests/walker/expr/assign.rs" in [].
Definition rec_walker_expr_assign_1 : list string :=
  ["fn func ( ) - > Result < ( ) , ( ) > { let mut x ; x = hoge ( 1 ) . inspect ( | _ | { { : : std : : io : : _print ( format_args ! ( ""{0}\n"" ,";
   """(no\stag)"" ) ) ; } ; } ) ? ; let _ = x ; # [ allow ( clippy : : let_unit_value ) ] let _ = { x = hoge ( 2 ) . inspect ( | _ | { { : : std : : io : :";
   "_print ( format_args ! ( ""{0}\n"" , ""inner"" ) ) ; } ; } ) ? } ; let _ = x ; Err ( ( ) ) . inspect ( | _ | { { : : std : : io : : _print ( format_args !";
   "( ""{0}\n"" , ""(no\stag)"" ) ) ; } ; } ) }"].
(** hoge *)
Example recorded_walker_expr_assign_0 : expanded su_walker_expr_assign args_walker_expr_assign_0 it_walker_expr_assign_0 = words rec_walker_expr_assign_0.
Proof. vm_compute. reflexivity. Qed.
(** func *)
Example recorded_walker_expr_assign_1 : expanded su_walker_expr_assign args_walker_expr_assign_1 it_walker_expr_assign_1 = words rec_walker_expr_assign_1.
Proof. vm_compute. reflexivity. Qed.
(** ** hooq-macros/tests/walker/expr/async.rs *)
Definition doc_walker_expr_async : list (string * ftable) := [].
Definition texts_walker_expr_async : list (string * list tt) := let S := at_ "" in [].
Definition strs_walker_expr_async : list (string * string) :=
  [("An error occurred : { 0 : ? }", "An error occurred: {0:?}
");
   ("Task { 0 } completed", "Task {0} completed
");
   ("tag : { 0 }", "tag: {0}
")].
Definition ends_walker_expr_async : list (N * N * (N * N * string)) :=
  [(2, 18, (2, 35, "")); (4, 14, (4, 16, "")); (4, 34, (4, 36, "")); (4, 38, (8, 2, "")); (5, 10, (5, 37, "")); (5, 32, (5, 36, "")); (7, 7, (7, 11, "")); (10, 2, (10, 8, "")); (11, 2, (11, 32, "")); (11, 15, (11, 31, """async function""")); (12, 2, (14, 5, "")); (12, 15, (14, 4, "")); (12, 28, (14, 3, "")); (12, 33, (14, 2, "")); (13, 13, (13, 30, "")); (13, 14, (13, 23, """tag: {}""")); (15, 2, (15, 39, "")); (15, 25, (15, 38, "")); (15, 26, (15, 30, """Ok""")); (15, 32, (15, 37, """Err""")); (16, 14, (16, 24, "")); (16, 35, (16, 37, "")); (16, 39, (16, 41, "")); (16, 43, (40, 2, "")); (17, 17, (17, 23, "")); (18, 13, (32, 11, "")); (18, 18, (32, 10, "")); (19, 14, (19, 41, "")); (19, 27, (19, 40, """async block""")); (20, 25, (31, 15, "")); (20, 37, (31, 14, "")); (21, 30, (21, 32, "")); (23, 22, (23, 67, "")); (23, 44, (23, 66, "")); (23, 51, (23, 58, "")); (24, 25, (24, 47, "")); (24, 26, (24, 46, """Task {i} completed""")); (26, 31, (28, 18, "")); (27, 34, (27, 36, "")); (27, 38, (27, 40, "")); (27, 41, (27, 45, "")); (27, 42, (27, 44, "")); (30, 20, (30, 24, "")); (30, 21, (30, 23, "")); (33, 27, (33, 29, "")); (35, 34, (35, 41, "")); (35, 55, (37, 7, "")); (35, 60, (37, 6, "")); (36, 18, (36, 46, "")); (36, 19, (36, 45, """An error occurred: {e:?}""")); (39, 8, (39, 12, "")); (39, 9, (39, 11, "")); (42, 2, (42, 15, "")); (43, 14, (43, 16, "")); (43, 17, (45, 2, "")); (44, 17, (44, 20, ""))].
Definition su_walker_expr_async : setup := mk_setup (mk_features false false true false false "hooq") doc_walker_expr_async texts_walker_expr_async strs_walker_expr_async [] ends_walker_expr_async "async".
Definition it_walker_expr_async_0 : item := let S := at_ "hooq-macros/tests/walker/expr/async.rs" in
  (IFn [mk_attr false (S 11 1) (MNameValue (mk_path false [mk_seg "hooq" [] (S 11 3); mk_seg "tag" [] (S 11 9)]) (VStr "async function" (S 11 15))); mk_attr false (S 12 1) (MList (mk_path false [mk_seg "hooq" [] (S 12 3); mk_seg "method" [] (S 12 9)]) Parenth [O S "." 12 16; I S "inspect_err" 12 17; G S Parenth [O S "|" 12 29; I S "_" 12 30; O S "|" 12 31; G S Brace [I S "println" 13 5; O S "!" 13 12; G S Parenth [L S (LStr "tag: {}") 13 14; O S "," 13 23; O S "$" 13 25; I S "tag" 13 26] 13 13; O S ";" 13 30] 12 33] 12 28] (S 12 15)); mk_attr false (S 15 1) (MList (mk_path false [mk_seg "hooq" [] (S 15 3); mk_seg "tail_expr_idents" [] (S 15 9)]) Parenth [L S (LStr "Ok") 15 26; O S "," 15 30; L S (LStr "Err") 15 32] (S 15 25))] [] (mk_sig "func" (RetPath (mk_path false [mk_seg "Result" [O S "<" 16 34; G S Parenth [] 16 35; O S "," 16 37; G S Parenth [] 16 39; O S ">" 16 41] (S 16 28)])) [I S "async" 16 1; I S "fn" 16 7; I S "func" 16 10; G S Parenth [I S "n" 16 15; O S ":" 16 16; I S "usize" 16 18] 16 14; O S "-" 16 25; O S ">" 16 26; I S "Result" 16 28; O S "<" 16 34; G S Parenth [] 16 35; O S "," 16 37; G S Parenth [] 16 39; O S ">" 16 41]) (S 16 43) [(SLocalInit [] [I S "let" 17 5; I S "tasks" 17 9; O S "=" 17 15] (EMethodCall [] (EMethodCall [] (EParen [] (S 17 17) (ERange [] (Some (ELit [] (LOther "0") (S 17 18))) [O S "." 17 19; O S "." 17 20] (Some (EPath [] (mk_path false [mk_seg "n" [] (S 17 21)]))))) [O S "." 18 9; I S "map" 18 10] (S 18 13) [(EClosure [] [O S "|" 18 14; I S "i" 18 15; O S "|" 18 16] RetNone (EBlock [] [] (S 18 18) [(SExpr (ECall [mk_attr false (S 19 13) (MNameValue (mk_path false [mk_seg "hooq" [] (S 19 15); mk_seg "tag" [] (S 19 21)]) (VStr "async block" (S 19 27)))] (EPath [] (mk_path false [mk_seg "tokio" [] (S 20 13); mk_seg "spawn" [] (S 20 20)])) (S 20 25) [(EAsync [] [I S "async" 20 26; I S "move" 20 32] (S 20 37) [(SLocalInit [] [I S "let" 21 17; I S "_n" 21 21; O S "=" 21 24] (ETry [] (EAwait [] (ECall [] (EPath [] (mk_path false [mk_seg "hoge" [] (S 21 26)])) (S 21 30) [] []) [O S "." 21 32; I S "await" 21 33]) (S 21 38)) [] None [O S ";" 21 39]); (SExpr (EAwait [] (ECall [] (EPath [] (mk_path false [mk_seg "sleep" [] (S 23 17)])) (S 23 22) [(ECall [] (EPath [] (mk_path false [mk_seg "Duration" [] (S 23 23); mk_seg "from_millis" [] (S 23 33)])) (S 23 44) [(EBinary [] (ELit [] (LOther "100") (S 23 45)) [O S "*" 23 49] (ECast [] (EParen [] (S 23 51) (EBinary [] (EPath [] (mk_path false [mk_seg "i" [] (S 23 52)])) [O S "+" 23 54] (ELit [] (LOther "1") (S 23 56)))) [I S "as" 23 59; I S "u64" 23 62]))] [])] []) [O S "." 23 67; I S "await" 23 68]) (Some (S 23 73))); (SMacro [] (Mac (mk_path false [mk_seg "println" [] (S 24 17)]) Parenth (S 24 25) [L S (LStr "Task {i} completed") 24 26] (Some [VExpr (ELit [] (LStr "Task {i} completed") (S 24 26)) []])) [O S ";" 24 47]); (SExpr (EIf [] [I S "if" 26 17] (EBinary [] (EBinary [] (EPath [] (mk_path false [mk_seg "i" [] (S 26 20)])) [O S "%" 26 22] (ELit [] (LOther "2") (S 26 24))) [O S "=" 26 26; O S "=" 26 27] (ELit [] (LOther "0") (S 26 29))) (S 26 31) [(SExpr (EReturn [] (S 27 21) (Some (ECall [] (EPath [] (mk_path false [mk_seg "Err" [O S ":" 27 31; O S ":" 27 32; O S "<" 27 33; G S Parenth [] 27 34; O S "," 27 36; G S Parenth [] 27 38; O S ">" 27 40] (S 27 28)])) (S 27 41) [(ETuple [] (S 27 42) [] [])] []))) (Some (S 27 45)))] [] None) None); (SExpr (ECall [] (EPath [] (mk_path false [mk_seg "Err" [] (S 30 17)])) (S 30 20) [(ETuple [] (S 30 21) [] [])] []) None)])] []) None)]))] []) [O S "." 33 9; I S "collect" 33 10; O S ":" 33 17; O S ":" 33 18; O S "<" 33 19; I S "Vec" 33 20; O S "<" 33 23; I S "_" 33 24; O S ">" 33 25; O S ">" 33 26] (S 33 27) [] []) [] None [O S ";" 33 29]); (SExpr (ETry [] (EMethodCall [] (EAwait [] (ECall [] (EPath [] (mk_path false [mk_seg "futures" [] (S 35 5); mk_seg "future" [] (S 35 14); mk_seg "try_join_all" [] (S 35 22)])) (S 35 34) [(EPath [] (mk_path false [mk_seg "tasks" [] (S 35 35)]))] []) [O S "." 35 41; I S "await" 35 42]) [O S "." 35 47; I S "map_err" 35 48] (S 35 55) [(EClosure [] [O S "|" 35 56; I S "e" 35 57; O S "|" 35 58] RetNone (EBlock [] [] (S 35 60) [(SMacro [] (Mac (mk_path false [mk_seg "eprintln" [] (S 36 9)]) Parenth (S 36 18) [L S (LStr "An error occurred: {e:?}") 36 19] (Some [VExpr (ELit [] (LStr "An error occurred: {e:?}") (S 36 19)) []])) [O S ";" 36 46])]))] []) (S 37 7)) (Some (S 37 8))); (SExpr (ECall [] (EPath [] (mk_path false [mk_seg "Err" [] (S 39 5)])) (S 39 8) [(ETuple [] (S 39 9) [] [])] []) None)]).
Definition args_walker_expr_async_0 : list meta := let S := at_ "hooq-macros/tests/walker/expr/async.rs" in [].
Definition rec_walker_expr_async_0 : list string :=
  ["async fn func ( n : usize ) - > Result < ( ) , ( ) > { let tasks = ( 0 . . n ) . map ( | i | tokio : : spawn ( async move { let _n = hoge ( ) . await";
   ". inspect_err ( | _ | { { : : std : : io : : _print ( format_args ! ( ""tag:\s{0}\n"" , ""async\sblock"" ) ) ; } ; } ) ? ; sleep ( Duration : :";
   "from_millis ( 100 * ( i + 1 ) as u64 ) ) . await ; { : : std : : io : : _print ( format_args ! ( ""Task\s{0}\scompleted\n"" , i ) ) ; } ; if i % 2 = = 0";
   "{ return Err : : < ( ) , ( ) > ( ( ) ) . inspect_err ( | _ | { { : : std : : io : : _print ( format_args ! ( ""tag:\s{0}\n"" , ""async\sblock"" ) ) ; } ;";
   "} ) ; } Err ( ( ) ) . inspect_err ( | _ | { { : : std : : io : : _print ( format_args ! ( ""tag:\s{0}\n"" , ""async\sblock"" ) ) ; } ; } ) } ) ) . collect";
   ": : < Vec < _ > > ( ) ; futures : : future : : try_join_all ( tasks ) . await . map_err ( | e | { { : : std : : io : : _eprint ( format_args ! (";
   """An\serror\soccurred:\s{0:?}\n"" , e ) ) ; } ; } ) . inspect_err ( | _ | { { : : std : : io : : _print ( format_args ! ( ""tag:\s{0}\n"" ,";
   """async\sfunction"" ) ) ; } ; } ) ? ; Err ( ( ) ) . inspect_err ( | _ | { { : : std : : io : : _print ( format_args ! ( ""tag:\s{0}\n"" ,";
   """async\sfunction"" ) ) ; } ; } ) }"].
(** func *)
Example recorded_walker_expr_async_0 : expanded su_walker_expr_async args_walker_expr_async_0 it_walker_expr_async_0 = words rec_walker_expr_async_0.
Proof. vm_compute. reflexivity. Qed.
(** ** hooq-macros/tests/walker/expr/await.rs *)
Definition doc_walker_expr_await : list (string * ftable) := [].
Definition texts_walker_expr_await : list (string * list tt) := let S := at_ "" in [].
Definition strs_walker_expr_await : list (string * string) :=
  [("tag : { 0 }", "tag: {0}
")].
Definition ends_walker_expr_await : list (N * N * (N * N * string)) :=
  [(2, 18, (2, 35, "")); (4, 2, (4, 8, "")); (5, 2, (5, 32, "")); (5, 15, (5, 31, """async function""")); (6, 2, (8, 5, "")); (6, 15, (8, 4, "")); (6, 24, (8, 3, "")); (6, 29, (8, 2, "")); (7, 13, (7, 30, "")); (7, 14, (7, 23, """tag: {}""")); (9, 2, (9, 39, "")); (9, 25, (9, 38, "")); (9, 26, (9, 30, """Ok""")); (9, 32, (9, 37, """Err""")); (10, 14, (10, 16, "")); (10, 27, (10, 29, "")); (10, 31, (10, 33, "")); (10, 35, (21, 2, "")); (11, 27, (15, 7, "")); (11, 34, (15, 6, "")); (12, 14, (12, 41, "")); (12, 36, (12, 40, "")); (14, 18, (14, 20, "")); (14, 22, (14, 24, "")); (14, 30, (14, 34, "")); (14, 31, (14, 33, "")); (18, 16, (18, 24, "")); (18, 21, (18, 23, "")); (20, 8, (20, 12, "")); (20, 9, (20, 11, "")); (23, 2, (23, 15, "")); (24, 14, (24, 16, "")); (24, 17, (26, 2, "")); (25, 17, (25, 19, ""))].
Definition su_walker_expr_await : setup := mk_setup (mk_features false false true false false "hooq") doc_walker_expr_await texts_walker_expr_await strs_walker_expr_await [] ends_walker_expr_await "await".
Definition it_walker_expr_await_0 : item := let S := at_ "hooq-macros/tests/walker/expr/await.rs" in
  (IFn [mk_attr false (S 5 1) (MNameValue (mk_path false [mk_seg "hooq" [] (S 5 3); mk_seg "tag" [] (S 5 9)]) (VStr "async function" (S 5 15))); mk_attr false (S 6 1) (MList (mk_path false [mk_seg "hooq" [] (S 6 3); mk_seg "method" [] (S 6 9)]) Parenth [O S "." 6 16; I S "inspect" 6 17; G S Parenth [O S "|" 6 25; I S "_" 6 26; O S "|" 6 27; G S Brace [I S "println" 7 5; O S "!" 7 12; G S Parenth [L S (LStr "tag: {}") 7 14; O S "," 7 23; O S "$" 7 25; I S "tag" 7 26] 7 13; O S ";" 7 30] 6 29] 6 24] (S 6 15)); mk_attr false (S 9 1) (MList (mk_path false [mk_seg "hooq" [] (S 9 3); mk_seg "tail_expr_idents" [] (S 9 9)]) Parenth [L S (LStr "Ok") 9 26; O S "," 9 30; L S (LStr "Err") 9 32] (S 9 25))] [] (mk_sig "func" (RetPath (mk_path false [mk_seg "Result" [O S "<" 10 26; G S Parenth [] 10 27; O S "," 10 29; G S Parenth [] 10 31; O S ">" 10 33] (S 10 20)])) [I S "async" 10 1; I S "fn" 10 7; I S "func" 10 10; G S Parenth [] 10 14; O S "-" 10 17; O S ">" 10 18; I S "Result" 10 20; O S "<" 10 26; G S Parenth [] 10 27; O S "," 10 29; G S Parenth [] 10 31; O S ">" 10 33]) (S 10 35) [(SLocalInit [] [I S "let" 11 5; I S "res" 11 9; O S "=" 11 13] (EAwait [] (ECall [] (EPath [] (mk_path false [mk_seg "tokio" [] (S 11 15); mk_seg "spawn" [] (S 11 22)])) (S 11 27) [(EAsync [] [I S "async" 11 28] (S 11 34) [(SExpr (EAwait [] (ECall [] (EPath [] (mk_path false [mk_seg "sleep" [] (S 12 9)])) (S 12 14) [(ECall [] (EPath [] (mk_path false [mk_seg "Duration" [] (S 12 15); mk_seg "from_millis" [] (S 12 25)])) (S 12 36) [(ELit [] (LOther "10") (S 12 37))] [])] []) [O S "." 12 41; I S "await" 12 42]) (Some (S 12 47))); (SExpr (ECall [] (EPath [] (mk_path false [mk_seg "Result" [O S ":" 14 15; O S ":" 14 16; O S "<" 14 17; G S Parenth [] 14 18; O S "," 14 20; G S Parenth [] 14 22; O S ">" 14 24] (S 14 9); mk_seg "Err" [] (S 14 27)])) (S 14 30) [(ETuple [] (S 14 31) [] [])] []) None)])] []) [O S "." 16 5; I S "await" 16 6]) [] None [O S ";" 16 11]); (SExpr (ETry [] (ETry [] (EMethodCall [] (EPath [] (mk_path false [mk_seg "res" [] (S 18 5)])) [O S "." 18 8; I S "map_err" 18 9] (S 18 16) [(EClosure [] [O S "|" 18 17; I S "_" 18 18; O S "|" 18 19] RetNone (ETuple [] (S 18 21) [] []))] []) (S 18 24)) (S 18 25)) (Some (S 18 26))); (SExpr (ECall [] (EPath [] (mk_path false [mk_seg "Err" [] (S 20 5)])) (S 20 8) [(ETuple [] (S 20 9) [] [])] []) None)]).
Definition args_walker_expr_await_0 : list meta := let S := at_ "hooq-macros/tests/walker/expr/await.rs" in [].
Definition rec_walker_expr_await_0 : list string :=
  ["async fn func ( ) - > Result < ( ) , ( ) > { let res = tokio : : spawn ( async { sleep ( Duration : : from_millis ( 10 ) ) . await ; Result : : < ( )";
   ", ( ) > : : Err ( ( ) ) . inspect ( | _ | { { : : std : : io : : _print ( format_args ! ( ""tag:\s{0}\n"" , ""async\sfunction"" ) ) ; } ; } ) } ) . await";
   "; res . map_err ( | _ | ( ) ) . inspect ( | _ | { { : : std : : io : : _print ( format_args ! ( ""tag:\s{0}\n"" , ""async\sfunction"" ) ) ; } ; } ) ? .";
   "inspect ( | _ | { { : : std : : io : : _print ( format_args ! ( ""tag:\s{0}\n"" , ""async\sfunction"" ) ) ; } ; } ) ? ; Err ( ( ) ) . inspect ( | _ | { {";
   ": : std : : io : : _print ( format_args ! ( ""tag:\s{0}\n"" , ""async\sfunction"" ) ) ; } ; } ) }"].
(** func *)
Example recorded_walker_expr_await_0 : expanded su_walker_expr_await args_walker_expr_await_0 it_walker_expr_await_0 = words rec_walker_expr_await_0.
Proof. vm_compute. reflexivity. Qed.
(** ** hooq-macros/tests/walker/expr/binary.rs *)
Definition doc_walker_expr_binary : list (string * ftable) := [].
Definition texts_walker_expr_binary : list (string * list tt) := let S := at_ "" in [].
Definition strs_walker_expr_binary : list (string * string) :=
  [("( no tag )", "(no tag)");
   ("tag : { 0 }", "tag: {0}
")].
Definition ends_walker_expr_binary : list (N * N * (N * N * string)) :=
  [(3, 2, (3, 8, "")); (4, 5, (4, 7, "")); (4, 23, (4, 25, "")); (4, 27, (6, 2, "")); (5, 7, (5, 11, "")); (8, 2, (8, 8, "")); (9, 5, (9, 7, "")); (9, 23, (9, 25, "")); (9, 27, (11, 2, "")); (10, 7, (10, 11, "")); (13, 2, (13, 8, "")); (14, 2, (16, 5, "")); (14, 15, (16, 4, "")); (14, 24, (16, 3, "")); (14, 29, (16, 2, "")); (15, 13, (15, 30, "")); (15, 14, (15, 23, """tag: {}""")); (17, 2, (17, 26, "")); (17, 15, (17, 25, """(no tag)""")); (18, 8, (18, 10, "")); (18, 26, (18, 28, "")); (18, 30, (28, 2, "")); (19, 6, (19, 25, "")); (19, 19, (19, 24, """add""")); (20, 18, (20, 20, "")); (20, 25, (20, 27, "")); (22, 6, (22, 32, "")); (22, 19, (22, 31, """add_assign""")); (23, 5, (25, 6, "")); (24, 15, (24, 17, "")); (27, 7, (27, 24, "")); (27, 13, (27, 15, "")); (27, 20, (27, 22, "")); (30, 2, (30, 8, "")); (31, 8, (31, 10, "")); (31, 11, (33, 2, "")); (32, 9, (32, 11, "")); (32, 18, (32, 20, ""))].
Definition su_walker_expr_binary : setup := mk_setup (mk_features false false true false false "hooq") doc_walker_expr_binary texts_walker_expr_binary strs_walker_expr_binary [] ends_walker_expr_binary "binary".
Definition it_walker_expr_binary_0 : item := let S := at_ "hooq-macros/tests/walker/expr/binary.rs" in
  (IFn [] [] (mk_sig "b" (RetPath (mk_path false [mk_seg "Result" [O S "<" 4 17; I S "u32" 4 18; O S "," 4 21; G S Parenth [] 4 23; O S ">" 4 25] (S 4 11)])) [I S "fn" 4 1; I S "b" 4 4; G S Parenth [] 4 5; O S "-" 4 8; O S ">" 4 9; I S "Result" 4 11; O S "<" 4 17; I S "u32" 4 18; O S "," 4 21; G S Parenth [] 4 23; O S ">" 4 25]) (S 4 27) [(SExpr (ECall [] (EPath [] (mk_path false [mk_seg "Ok" [] (S 5 5)])) (S 5 7) [(ELit [] (LOther "10") (S 5 8))] []) None)]).
Definition args_walker_expr_binary_0 : list meta := let S := at_ "hooq-macros/tests/walker/expr/binary.rs" in [].
Definition rec_walker_expr_binary_0 : list string :=
  ["fn b ( ) - > Result < u32 , ( ) > { Ok ( 10 ) }"].
Definition it_walker_expr_binary_1 : item := let S := at_ "hooq-macros/tests/walker/expr/binary.rs" in
  (IFn [] [] (mk_sig "c" (RetPath (mk_path false [mk_seg "Result" [O S "<" 9 17; I S "u32" 9 18; O S "," 9 21; G S Parenth [] 9 23; O S ">" 9 25] (S 9 11)])) [I S "fn" 9 1; I S "c" 9 4; G S Parenth [] 9 5; O S "-" 9 8; O S ">" 9 9; I S "Result" 9 11; O S "<" 9 17; I S "u32" 9 18; O S "," 9 21; G S Parenth [] 9 23; O S ">" 9 25]) (S 9 27) [(SExpr (ECall [] (EPath [] (mk_path false [mk_seg "Ok" [] (S 10 5)])) (S 10 7) [(ELit [] (LOther "20") (S 10 8))] []) None)]).
Definition args_walker_expr_binary_1 : list meta := let S := at_ "hooq-macros/tests/walker/expr/binary.rs" in [].
Definition rec_walker_expr_binary_1 : list string :=
  ["fn c ( ) - > Result < u32 , ( ) > { Ok ( 20 ) }"].
Definition it_walker_expr_binary_2 : item := let S := at_ "hooq-macros/tests/walker/expr/binary.rs" in
  (IFn [mk_attr false (S 14 1) (MList (mk_path false [mk_seg "hooq" [] (S 14 3); mk_seg "method" [] (S 14 9)]) Parenth [O S "." 14 16; I S "inspect" 14 17; G S Parenth [O S "|" 14 25; I S "_" 14 26; O S "|" 14 27; G S Brace [I S "println" 15 5; O S "!" 15 12; G S Parenth [L S (LStr "tag: {}") 15 14; O S "," 15 23; O S "$" 15 25; I S "tag" 15 26] 15 13; O S ";" 15 30] 14 29] 14 24] (S 14 15)); mk_attr false (S 17 1) (MNameValue (mk_path false [mk_seg "hooq" [] (S 17 3); mk_seg "tag" [] (S 17 9)]) (VStr "(no tag)" (S 17 15)))] [] (mk_sig "func" (RetPath (mk_path false [mk_seg "Result" [O S "<" 18 20; I S "u32" 18 21; O S "," 18 24; G S Parenth [] 18 26; O S ">" 18 28] (S 18 14)])) [I S "fn" 18 1; I S "func" 18 4; G S Parenth [] 18 8; O S "-" 18 11; O S ">" 18 12; I S "Result" 18 14; O S "<" 18 20; I S "u32" 18 21; O S "," 18 24; G S Parenth [] 18 26; O S ">" 18 28]) (S 18 30) [(SLocalInit [mk_attr false (S 19 5) (MNameValue (mk_path false [mk_seg "hooq" [] (S 19 7); mk_seg "tag" [] (S 19 13)]) (VStr "add" (S 19 19)))] [I S "let" 20 5; I S "mut" 20 9; I S "a" 20 13; O S "=" 20 15] (EBinary [] (ETry [] (ECall [] (EPath [] (mk_path false [mk_seg "b" [] (S 20 17)])) (S 20 18) [] []) (S 20 20)) [O S "+" 20 22] (ETry [] (ECall [] (EPath [] (mk_path false [mk_seg "c" [] (S 20 24)])) (S 20 25) [] []) (S 20 27))) [] None [O S ";" 20 28]); (SExpr (EBlock [mk_attr false (S 22 5) (MNameValue (mk_path false [mk_seg "hooq" [] (S 22 7); mk_seg "tag" [] (S 22 13)]) (VStr "add_assign" (S 22 19)))] [] (S 23 5) [(SExpr (EBinary [] (EPath [] (mk_path false [mk_seg "a" [] (S 24 9)])) [O S "+" 24 11; O S "=" 24 12] (ETry [] (ECall [] (EPath [] (mk_path false [mk_seg "b" [] (S 24 14)])) (S 24 15) [] []) (S 24 17))) (Some (S 24 18)))]) None); (SExpr (ECall [] (EPath [] (mk_path false [mk_seg "Ok" [] (S 27 5)])) (S 27 7) [(EBinary [] (EBinary [] (EPath [] (mk_path false [mk_seg "a" [] (S 27 8)])) [O S "+" 27 10] (ETry [] (ECall [] (EPath [] (mk_path false [mk_seg "b" [] (S 27 12)])) (S 27 13) [] []) (S 27 15))) [O S "+" 27 17] (ETry [] (ECall [] (EPath [] (mk_path false [mk_seg "c" [] (S 27 19)])) (S 27 20) [] []) (S 27 22)))] []) None)]).
Definition args_walker_expr_binary_2 : list meta := let S := at_ "hooq-macros/tests/walker/expr/binary.rs" in [].
Definition rec_walker_expr_binary_2 : list string :=
  ["fn func ( ) - > Result < u32 , ( ) > { let mut a = b ( ) . inspect ( | _ | { { : : std : : io : : _print ( format_args ! ( ""tag:\s{0}\n"" , ""add"" ) ) ;";
   "} ; } ) ? + c ( ) . inspect ( | _ | { { : : std : : io : : _print ( format_args ! ( ""tag:\s{0}\n"" , ""add"" ) ) ; } ; } ) ? ; { a + = b ( ) . inspect (";
   "| _ | { { : : std : : io : : _print ( format_args ! ( ""tag:\s{0}\n"" , ""add_assign"" ) ) ; } ; } ) ? ; } Ok ( a + b ( ) . inspect ( | _ | { { : : std :";
   ": io : : _print ( format_args ! ( ""tag:\s{0}\n"" , ""(no\stag)"" ) ) ; } ; } ) ? + c ( ) . inspect ( | _ | { { : : std : : io : : _print ( format_args !";
   "( ""tag:\s{0}\n"" , ""(no\stag)"" ) ) ; } ; } ) ? ) }"].
(** b *)
Example recorded_walker_expr_binary_0 : expanded su_walker_expr_binary args_walker_expr_binary_0 it_walker_expr_binary_0 = words rec_walker_expr_binary_0.
Proof. vm_compute. reflexivity. Qed.
(** c *)
Example recorded_walker_expr_binary_1 : expanded su_walker_expr_binary args_walker_expr_binary_1 it_walker_expr_binary_1 = words rec_walker_expr_binary_1.
Proof. vm_compute. reflexivity. Qed.
(** func *)
Example recorded_walker_expr_binary_2 : expanded su_walker_expr_binary args_walker_expr_binary_2 it_walker_expr_binary_2 = words rec_walker_expr_binary_2.
Proof. vm_compute. reflexivity. Qed.
(** ** hooq-macros/tests/walker/expr/block.rs *)
Definition doc_walker_expr_block : list (string * ftable) := [].
Definition texts_walker_expr_block : list (string * list tt) := let S := at_ "" in [].
Definition strs_walker_expr_block : list (string * string) :=
  [("5 > Err ( ( ) ) |", "   5>    Err(())
    |");
   ("< hooq_root > / tests / walker / expr / block . rs", "<hooq_root>/tests/walker/expr/block.rs");
   ("[ { 0 } : { 1 } : { 2 } ] { 3 : ? } { 4 }", "[{0}:{1}:{2}] {3:?}
{4}
");
   ("beep", "beep
");
   ("beepbeep", "beepbeep
");
   ("tag : { 0 }", "tag: {0}
")].
Definition ends_walker_expr_block : list (N * N * (N * N * string)) :=
  [(3, 2, (3, 8, "")); (4, 8, (4, 10, "")); (4, 21, (4, 23, "")); (4, 25, (4, 27, "")); (4, 29, (6, 2, "")); (5, 8, (5, 12, "")); (5, 9, (5, 11, "")); (8, 2, (8, 8, "")); (9, 2, (11, 5, "")); (9, 15, (11, 4, "")); (9, 24, (11, 3, "")); (9, 29, (11, 2, "")); (10, 13, (10, 30, "")); (10, 14, (10, 23, """tag: {}""")); (12, 2, (12, 39, "")); (12, 25, (12, 38, "")); (12, 26, (12, 30, """Ok""")); (12, 32, (12, 37, """Err""")); (13, 2, (13, 27, "")); (13, 8, (13, 26, "")); (14, 8, (14, 20, "")); (14, 31, (14, 33, "")); (14, 35, (14, 37, "")); (14, 39, (46, 2, "")); (15, 6, (15, 23, "")); (15, 19, (15, 22, """1""")); (16, 5, (45, 6, "")); (17, 17, (17, 25, "")); (17, 18, (17, 24, """beep""")); (19, 10, (19, 27, "")); (19, 23, (19, 26, """2""")); (20, 11, (44, 12, "")); (20, 12, (44, 10, "")); (21, 14, (21, 31, "")); (21, 27, (21, 30, """3""")); (22, 15, (43, 15, "")); (22, 16, (43, 14, "")); (23, 18, (23, 35, "")); (23, 31, (23, 34, """4""")); (24, 17, (42, 18, "")); (25, 29, (27, 22, "")); (26, 36, (26, 38, "")); (29, 22, (29, 39, "")); (29, 35, (29, 38, """5""")); (30, 21, (36, 22, "")); (31, 33, (33, 26, "")); (32, 39, (32, 43, "")); (32, 40, (32, 42, "")); (35, 28, (35, 32, "")); (35, 29, (35, 31, "")); (38, 22, (38, 39, "")); (38, 35, (38, 38, """6""")); (39, 21, (41, 22, "")); (40, 33, (40, 45, "")); (40, 34, (40, 44, """beepbeep""")); (48, 2, (48, 8, "")); (49, 8, (49, 10, "")); (49, 11, (51, 2, "")); (50, 9, (50, 15, "")); (50, 26, (50, 28, ""))].
Definition su_walker_expr_block : setup := mk_setup (mk_features false false true false false "hooq") doc_walker_expr_block texts_walker_expr_block strs_walker_expr_block [] ends_walker_expr_block "block".
Definition it_walker_expr_block_0 : item := let S := at_ "<hooq_root>/tests/walker/expr/block.rs" in
  (IFn [] [] (mk_sig "hoge" (RetPath (mk_path false [mk_seg "Result" [O S "<" 4 20; G S Parenth [] 4 21; O S "," 4 23; G S Parenth [] 4 25; O S ">" 4 27] (S 4 14)])) [I S "fn" 4 1; I S "hoge" 4 4; G S Parenth [] 4 8; O S "-" 4 11; O S ">" 4 12; I S "Result" 4 14; O S "<" 4 20; G S Parenth [] 4 21; O S "," 4 23; G S Parenth [] 4 25; O S ">" 4 27]) (S 4 29) [(SExpr (ECall [] (EPath [] (mk_path false [mk_seg "Err" [] (S 5 5)])) (S 5 8) [(ETuple [] (S 5 9) [] [])] []) None)]).
Definition args_walker_expr_block_0 : list meta := let S := at_ "<hooq_root>/tests/walker/expr/block.rs" in [].
Definition rec_walker_expr_block_0 : list string :=
  ["fn hoge ( ) - > Result < ( ) , ( ) > { Err ( ( ) ) . inspect_err ( | e | { let path = ""<hooq_root>/tests/walker/expr/block.rs"" ; let line = 5usize ;";
   "let col = 5usize ; let expr = ""\s\s\s5>\s\s\s\sErr(())\n\s\s\s\s|"" ; { : : std : : io : : _eprint ( format_args ! ( ""[{0}:{1}:{2}]\s{3:?}\n{4}\n"" ,";
   "path , line , col , e , expr ) ) ; } ; } ) }"].
Definition it_walker_expr_block_1 : item := let S := at_ "<hooq_root>/tests/walker/expr/block.rs" in
  (IFn [mk_attr false (S 9 1) (MList (mk_path false [mk_seg "hooq" [] (S 9 3); mk_seg "method" [] (S 9 9)]) Parenth [O S "." 9 16; I S "inspect" 9 17; G S Parenth [O S "|" 9 25; I S "_" 9 26; O S "|" 9 27; G S Brace [I S "println" 10 5; O S "!" 10 12; G S Parenth [L S (LStr "tag: {}") 10 14; O S "," 10 23; O S "$" 10 25; I S "tag" 10 26] 10 13; O S ";" 10 30] 9 29] 9 24] (S 9 15)); mk_attr false (S 12 1) (MList (mk_path false [mk_seg "hooq" [] (S 12 3); mk_seg "tail_expr_idents" [] (S 12 9)]) Parenth [L S (LStr "Ok") 12 26; O S "," 12 30; L S (LStr "Err") 12 32] (S 12 25)); mk_attr false (S 13 1) (MList (mk_path false [mk_seg "allow" [] (S 13 3)]) Parenth [I S "clippy" 13 9; O S ":" 13 15; O S ":" 13 16; I S "unit_arg" 13 17] (S 13 8))] [] (mk_sig "func" (RetPath (mk_path false [mk_seg "Result" [O S "<" 14 30; G S Parenth [] 14 31; O S "," 14 33; G S Parenth [] 14 35; O S ">" 14 37] (S 14 24)])) [I S "fn" 14 1; I S "func" 14 4; G S Parenth [I S "flag" 14 9; O S ":" 14 13; I S "bool" 14 15] 14 8; O S "-" 14 21; O S ">" 14 22; I S "Result" 14 24; O S "<" 14 30; G S Parenth [] 14 31; O S "," 14 33; G S Parenth [] 14 35; O S ">" 14 37]) (S 14 39) [(SExpr (EBlock [mk_attr false (S 15 5) (MNameValue (mk_path false [mk_seg "hooq" [] (S 15 7); mk_seg "tag" [] (S 15 13)]) (VStr "1" (S 15 19)))] [] (S 16 5) [(SMacro [] (Mac (mk_path false [mk_seg "println" [] (S 17 9)]) Parenth (S 17 17) [L S (LStr "beep") 17 18] (Some [VExpr (ELit [] (LStr "beep") (S 17 18)) []])) [O S ";" 17 25]); (SExpr (ECall [mk_attr false (S 19 9) (MNameValue (mk_path false [mk_seg "hooq" [] (S 19 11); mk_seg "tag" [] (S 19 17)]) (VStr "2" (S 19 23)))] (EPath [] (mk_path false [mk_seg "Ok" [] (S 20 9)])) (S 20 11) [(ETry [] (EBlock [] [] (S 20 12) [(SExpr (ECall [mk_attr false (S 21 13) (MNameValue (mk_path false [mk_seg "hooq" [] (S 21 15); mk_seg "tag" [] (S 21 21)]) (VStr "3" (S 21 27)))] (EPath [] (mk_path false [mk_seg "Ok" [] (S 22 13)])) (S 22 15) [(EBlock [] [] (S 22 16) [(SExpr (EBlock [mk_attr false (S 23 17) (MNameValue (mk_path false [mk_seg "hooq" [] (S 23 19); mk_seg "tag" [] (S 23 25)]) (VStr "4" (S 23 31)))] [] (S 24 17) [(SExpr (EIf [] [I S "if" 25 21] (EPath [] (mk_path false [mk_seg "flag" [] (S 25 24)])) (S 25 29) [(SExpr (EReturn [] (S 26 25) (Some (ECall [] (EPath [] (mk_path false [mk_seg "hoge" [] (S 26 32)])) (S 26 36) [] []))) (Some (S 26 38)))] [] None) None); (SExpr (ETry [mk_attr false (S 29 21) (MNameValue (mk_path false [mk_seg "hooq" [] (S 29 23); mk_seg "tag" [] (S 29 29)]) (VStr "5" (S 29 35)))] (EBlock [] [] (S 30 21) [(SExpr (EIf [] [I S "if" 31 25] (EPath [] (mk_path false [mk_seg "flag" [] (S 31 28)])) (S 31 33) [(SExpr (EReturn [] (S 32 29) (Some (ECall [] (EPath [] (mk_path false [mk_seg "Err" [] (S 32 36)])) (S 32 39) [(ETuple [] (S 32 40) [] [])] []))) (Some (S 32 43)))] [] None) None); (SExpr (ECall [] (EPath [] (mk_path false [mk_seg "Err" [] (S 35 25)])) (S 35 28) [(ETuple [] (S 35 29) [] [])] []) None)]) (S 36 22)) (Some (S 36 23))); (SExpr (EBlock [mk_attr false (S 38 21) (MNameValue (mk_path false [mk_seg "hooq" [] (S 38 23); mk_seg "tag" [] (S 38 29)]) (VStr "6" (S 38 35)))] [] (S 39 21) [(SMacro [] (Mac (mk_path false [mk_seg "println" [] (S 40 25)]) Parenth (S 40 33) [L S (LStr "beepbeep") 40 34] (Some [VExpr (ELit [] (LStr "beepbeep") (S 40 34)) []])) [O S ";" 40 45])]) None)]) None)])] []) None)]) (S 44 10))] []) None)]) None)]).
Definition args_walker_expr_block_1 : list meta := let S := at_ "<hooq_root>/tests/walker/expr/block.rs" in [].
Definition rec_walker_expr_block_1 : list string :=
  ["# [ allow ( clippy : : unit_arg ) ] fn func ( flag : bool ) - > Result < ( ) , ( ) > { { { : : std : : io : : _print ( format_args ! ( ""beep\n"" ) ) ;";
   "} ; Ok ( { Ok ( { { if flag { return hoge ( ) . inspect ( | _ | { { : : std : : io : : _print ( format_args ! ( ""tag:\s{0}\n"" , ""4"" ) ) ; } ; } ) ; }";
   "{ if flag { return Err ( ( ) ) . inspect ( | _ | { { : : std : : io : : _print ( format_args ! ( ""tag:\s{0}\n"" , ""5"" ) ) ; } ; } ) ; } Err ( ( ) ) .";
   "inspect ( | _ | { { : : std : : io : : _print ( format_args ! ( ""tag:\s{0}\n"" , ""5"" ) ) ; } ; } ) } . inspect ( | _ | { { : : std : : io : : _print (";
   "format_args ! ( ""tag:\s{0}\n"" , ""5"" ) ) ; } ; } ) ? ; { { : : std : : io : : _print ( format_args ! ( ""beepbeep\n"" ) ) ; } ; } } } ) . inspect ( | _ |";
   "{ { : : std : : io : : _print ( format_args ! ( ""tag:\s{0}\n"" , ""3"" ) ) ; } ; } ) } . inspect ( | _ | { { : : std : : io : : _print ( format_args ! (";
   """tag:\s{0}\n"" , ""2"" ) ) ; } ; } ) ? ) . inspect ( | _ | { { : : std : : io : : _print ( format_args ! ( ""tag:\s{0}\n"" , ""2"" ) ) ; } ; } ) } . inspect";
   "( | _ | { { : : std : : io : : _print ( format_args ! ( ""tag:\s{0}\n"" , ""1"" ) ) ; } ; } ) }"].
(** hoge *)
Example recorded_walker_expr_block_0 : expanded su_walker_expr_block args_walker_expr_block_0 it_walker_expr_block_0 = words rec_walker_expr_block_0.
Proof. vm_compute. reflexivity. Qed.
(** func *)
Example recorded_walker_expr_block_1 : expanded su_walker_expr_block args_walker_expr_block_1 it_walker_expr_block_1 = words rec_walker_expr_block_1.
Proof. vm_compute. reflexivity. Qed.
(** ** hooq-macros/tests/walker/expr/break.rs *)
Definition doc_walker_expr_break : list (string * ftable) := [].
Definition texts_walker_expr_break : list (string * list tt) := let S := at_ "" in [].
Definition strs_walker_expr_break : list (string * string) :=
  [("( no tag )", "(no tag)");
   ("5 > Err ( ( ) ) |", "   5>    Err(())
    |");
   ("< hooq_root > / tests / walker / expr / break . rs", "<hooq_root>/tests/walker/expr/break.rs");
   ("[ { 0 } : { 1 } : { 2 } ] { 3 : ? } { 4 }", "[{0}:{1}:{2}] {3:?}
{4}
");
   ("tag : { 0 }", "tag: {0}
")].
Definition ends_walker_expr_break : list (N * N * (N * N * string)) :=
  [(3, 2, (3, 8, "")); (4, 8, (4, 10, "")); (4, 21, (4, 23, "")); (4, 25, (4, 27, "")); (4, 29, (6, 2, "")); (5, 8, (5, 12, "")); (5, 9, (5, 11, "")); (8, 2, (8, 8, "")); (9, 2, (11, 5, "")); (9, 15, (11, 4, "")); (9, 24, (11, 3, "")); (9, 29, (11, 2, "")); (10, 13, (10, 30, "")); (10, 14, (10, 23, """tag: {}""")); (12, 2, (12, 26, "")); (12, 15, (12, 25, """(no tag)""")); (13, 2, (13, 39, "")); (13, 25, (13, 38, "")); (13, 26, (13, 30, """Ok""")); (13, 32, (13, 37, """Err""")); (14, 8, (14, 20, "")); (14, 31, (14, 33, "")); (14, 35, (14, 37, "")); (14, 39, (68, 2, "")); (17, 10, (23, 6, "")); (20, 24, (22, 10, "")); (25, 10, (31, 6, "")); (28, 24, (30, 10, "")); (29, 22, (29, 26, "")); (29, 23, (29, 25, "")); (33, 6, (33, 27, "")); (33, 19, (33, 26, """label""")); (34, 18, (46, 6, "")); (37, 24, (45, 10, "")); (38, 18, (44, 14, "")); (41, 32, (43, 18, "")); (48, 6, (48, 32, "")); (48, 19, (48, 31, """check nest""")); (49, 10, (67, 6, "")); (52, 25, (66, 10, "")); (53, 19, (65, 14, "")); (54, 18, (54, 38, "")); (54, 31, (54, 37, """nest""")); (55, 17, (64, 18, "")); (56, 25, (56, 27, "")); (58, 22, (58, 44, "")); (58, 35, (58, 43, """return""")); (59, 30, (61, 22, "")); (60, 35, (60, 39, "")); (60, 36, (60, 38, "")); (63, 24, (63, 28, "")); (63, 25, (63, 27, "")); (70, 2, (70, 8, "")); (71, 8, (71, 10, "")); (71, 11, (73, 2, "")); (72, 9, (72, 15, "")); (72, 26, (72, 28, ""))].
Definition su_walker_expr_break : setup := mk_setup (mk_features false false true false false "hooq") doc_walker_expr_break texts_walker_expr_break strs_walker_expr_break [] ends_walker_expr_break "break".
Definition it_walker_expr_break_0 : item := let S := at_ "<hooq_root>/tests/walker/expr/break.rs" in
  (IFn [] [] (mk_sig "hoge" (RetPath (mk_path false [mk_seg "Result" [O S "<" 4 20; G S Parenth [] 4 21; O S "," 4 23; G S Parenth [] 4 25; O S ">" 4 27] (S 4 14)])) [I S "fn" 4 1; I S "hoge" 4 4; G S Parenth [] 4 8; O S "-" 4 11; O S ">" 4 12; I S "Result" 4 14; O S "<" 4 20; G S Parenth [] 4 21; O S "," 4 23; G S Parenth [] 4 25; O S ">" 4 27]) (S 4 29) [(SExpr (ECall [] (EPath [] (mk_path false [mk_seg "Err" [] (S 5 5)])) (S 5 8) [(ETuple [] (S 5 9) [] [])] []) None)]).
Definition args_walker_expr_break_0 : list meta := let S := at_ "<hooq_root>/tests/walker/expr/break.rs" in [].
Definition rec_walker_expr_break_0 : list string :=
  ["fn hoge ( ) - > Result < ( ) , ( ) > { Err ( ( ) ) . inspect_err ( | e | { let path = ""<hooq_root>/tests/walker/expr/break.rs"" ; let line = 5usize ;";
   "let col = 5usize ; let expr = ""\s\s\s5>\s\s\s\sErr(())\n\s\s\s\s|"" ; { : : std : : io : : _eprint ( format_args ! ( ""[{0}:{1}:{2}]\s{3:?}\n{4}\n"" ,";
   "path , line , col , e , expr ) ) ; } ; } ) }"].
Definition it_walker_expr_break_1 : item := let S := at_ "<hooq_root>/tests/walker/expr/break.rs" in
  (IFn [mk_attr false (S 9 1) (MList (mk_path false [mk_seg "hooq" [] (S 9 3); mk_seg "method" [] (S 9 9)]) Parenth [O S "." 9 16; I S "inspect" 9 17; G S Parenth [O S "|" 9 25; I S "_" 9 26; O S "|" 9 27; G S Brace [I S "println" 10 5; O S "!" 10 12; G S Parenth [L S (LStr "tag: {}") 10 14; O S "," 10 23; O S "$" 10 25; I S "tag" 10 26] 10 13; O S ";" 10 30] 9 29] 9 24] (S 9 15)); mk_attr false (S 12 1) (MNameValue (mk_path false [mk_seg "hooq" [] (S 12 3); mk_seg "tag" [] (S 12 9)]) (VStr "(no tag)" (S 12 15))); mk_attr false (S 13 1) (MList (mk_path false [mk_seg "hooq" [] (S 13 3); mk_seg "tail_expr_idents" [] (S 13 9)]) Parenth [L S (LStr "Ok") 13 26; O S "," 13 30; L S (LStr "Err") 13 32] (S 13 25))] [] (mk_sig "func" (RetPath (mk_path false [mk_seg "Result" [O S "<" 14 30; G S Parenth [] 14 31; O S "," 14 33; G S Parenth [] 14 35; O S ">" 14 37] (S 14 24)])) [I S "fn" 14 1; I S "func" 14 4; G S Parenth [I S "flag" 14 9; O S ":" 14 13; I S "bool" 14 15] 14 8; O S "-" 14 21; O S ">" 14 22; I S "Result" 14 24; O S "<" 14 30; G S Parenth [] 14 31; O S "," 14 33; G S Parenth [] 14 35; O S ">" 14 37]) (S 14 39) [(SLocalInit [] [I S "let" 15 5; I S "mut" 15 9; I S "counter" 15 13; O S "=" 15 21] (ELit [] (LOther "0") (S 15 23)) [] None [O S ";" 15 24]); (SExpr (ELoop [] [I S "loop" 17 5] (S 17 10) [(SExpr (EBinary [] (EPath [] (mk_path false [mk_seg "counter" [] (S 18 9)])) [O S "+" 18 17; O S "=" 18 18] (ELit [] (LOther "1") (S 18 20))) (Some (S 18 21))); (SExpr (EIf [] [I S "if" 20 9] (EBinary [] (EPath [] (mk_path false [mk_seg "counter" [] (S 20 12)])) [O S ">" 20 20] (ELit [] (LOther "2") (S 20 22))) (S 20 24) [(SExpr (EBreak [] [I S "break" 21 13] None) (Some (S 21 18)))] [] None) None)]) None); (SExpr (ETry [] (ELoop [] [I S "loop" 25 5] (S 25 10) [(SExpr (EBinary [] (EPath [] (mk_path false [mk_seg "counter" [] (S 26 9)])) [O S "+" 26 17; O S "=" 26 18] (ELit [] (LOther "1") (S 26 20))) (Some (S 26 21))); (SExpr (EIf [] [I S "if" 28 9] (EBinary [] (EPath [] (mk_path false [mk_seg "counter" [] (S 28 12)])) [O S ">" 28 20] (ELit [] (LOther "3") (S 28 22))) (S 28 24) [(SExpr (EBreak [] [I S "break" 29 13] (Some (ECall [] (EPath [] (mk_path false [mk_seg "Err" [] (S 29 19)])) (S 29 22) [(ETuple [] (S 29 23) [] [])] []))) (Some (S 29 26)))] [] None) None)]) (S 31 6)) (Some (S 31 7))); (SExpr (ELoop [mk_attr false (S 33 5) (MNameValue (mk_path false [mk_seg "hooq" [] (S 33 7); mk_seg "tag" [] (S 33 13)]) (VStr "label" (S 33 19)))] [O S "'" 34 5; I S "outer" 34 6; O S ":" 34 11; I S "loop" 34 13] (S 34 18) [(SExpr (EBinary [] (EPath [] (mk_path false [mk_seg "counter" [] (S 35 9)])) [O S "+" 35 17; O S "=" 35 18] (ELit [] (LOther "1") (S 35 20))) (Some (S 35 21))); (SExpr (EIf [] [I S "if" 37 9] (EBinary [] (EPath [] (mk_path false [mk_seg "counter" [] (S 37 12)])) [O S ">" 37 20] (ELit [] (LOther "4") (S 37 22))) (S 37 24) [(SExpr (ELoop [] [I S "loop" 38 13] (S 38 18) [(SExpr (EBinary [] (EPath [] (mk_path false [mk_seg "counter" [] (S 39 17)])) [O S "+" 39 25; O S "=" 39 26] (ELit [] (LOther "1") (S 39 28))) (Some (S 39 29))); (SExpr (EIf [] [I S "if" 41 17] (EBinary [] (EPath [] (mk_path false [mk_seg "counter" [] (S 41 20)])) [O S ">" 41 28] (ELit [] (LOther "5") (S 41 30))) (S 41 32) [(SExpr (EBreak [] [I S "break" 42 21; O S "'" 42 27; I S "outer" 42 28] None) (Some (S 42 33)))] [] None) None)]) None)] [] None) None)]) None); (SExpr (ELoop [mk_attr false (S 48 5) (MNameValue (mk_path false [mk_seg "hooq" [] (S 48 7); mk_seg "tag" [] (S 48 13)]) (VStr "check nest" (S 48 19)))] [I S "loop" 49 5] (S 49 10) [(SExpr (EBinary [] (EPath [] (mk_path false [mk_seg "counter" [] (S 50 9)])) [O S "+" 50 17; O S "=" 50 18] (ELit [] (LOther "1") (S 50 20))) (Some (S 50 21))); (SExpr (EIf [] [I S "if" 52 9] (EBinary [] (EPath [] (mk_path false [mk_seg "counter" [] (S 52 12)])) [O S ">" 52 20] (ELit [] (LOther "10") (S 52 22))) (S 52 25) [(SExpr (EBreak [] [I S "break" 53 13] (Some (EBlock [] [] (S 53 19) [(SExpr (EBlock [mk_attr false (S 54 17) (MNameValue (mk_path false [mk_seg "hooq" [] (S 54 19); mk_seg "tag" [] (S 54 25)]) (VStr "nest" (S 54 31)))] [] (S 55 17) [(SExpr (ETry [] (ECall [] (EPath [] (mk_path false [mk_seg "hoge" [] (S 56 21)])) (S 56 25) [] []) (S 56 27)) (Some (S 56 28))); (SExpr (EIf [mk_attr false (S 58 21) (MNameValue (mk_path false [mk_seg "hooq" [] (S 58 23); mk_seg "tag" [] (S 58 29)]) (VStr "return" (S 58 35)))] [I S "if" 59 21] (EUnary [] [O S "!" 59 24] (EPath [] (mk_path false [mk_seg "flag" [] (S 59 25)]))) (S 59 30) [(SExpr (EReturn [] (S 60 25) (Some (ECall [] (EPath [] (mk_path false [mk_seg "Err" [] (S 60 32)])) (S 60 35) [(ETuple [] (S 60 36) [] [])] []))) (Some (S 60 39)))] [] None) None); (SExpr (ECall [] (EPath [] (mk_path false [mk_seg "Err" [] (S 63 21)])) (S 63 24) [(ETuple [] (S 63 25) [] [])] []) None)]) None)]))) (Some (S 65 14)))] [] None) None)]) None)]).
Definition args_walker_expr_break_1 : list meta := let S := at_ "<hooq_root>/tests/walker/expr/break.rs" in [].
Definition rec_walker_expr_break_1 : list string :=
  ["fn func ( flag : bool ) - > Result < ( ) , ( ) > { let mut counter = 0 ; loop { counter + = 1 ; if counter > 2 { break ; } } loop { counter + = 1 ; if";
   "counter > 3 { break Err ( ( ) ) ; } } . inspect ( | _ | { { : : std : : io : : _print ( format_args ! ( ""tag:\s{0}\n"" , ""(no\stag)"" ) ) ; } ; } ) ? ;";
   "' outer : loop { counter + = 1 ; if counter > 4 { loop { counter + = 1 ; if counter > 5 { break ' outer ; } } } } loop { counter + = 1 ; if counter >";
   "10 { break { { hoge ( ) . inspect ( | _ | { { : : std : : io : : _print ( format_args ! ( ""tag:\s{0}\n"" , ""nest"" ) ) ; } ; } ) ? ; if ! flag { return";
   "Err ( ( ) ) . inspect ( | _ | { { : : std : : io : : _print ( format_args ! ( ""tag:\s{0}\n"" , ""return"" ) ) ; } ; } ) ; } Err ( ( ) ) . inspect ( | _ |";
   "{ { : : std : : io : : _print ( format_args ! ( ""tag:\s{0}\n"" , ""nest"" ) ) ; } ; } ) } } ; } } . inspect ( | _ | { { : : std : : io : : _print (";
   "format_args ! ( ""tag:\s{0}\n"" , ""check\snest"" ) ) ; } ; } ) }"].
(** hoge *)
Example recorded_walker_expr_break_0 : expanded su_walker_expr_break args_walker_expr_break_0 it_walker_expr_break_0 = words rec_walker_expr_break_0.
Proof. vm_compute. reflexivity. Qed.
(** func *)
Example recorded_walker_expr_break_1 : expanded su_walker_expr_break args_walker_expr_break_1 it_walker_expr_break_1 = words rec_walker_expr_break_1.
Proof. vm_compute. reflexivity. Qed.
(** ** hooq-macros/tests/walker/expr/call.rs *)
Definition doc_walker_expr_call : list (string * ftable) := [].
Definition texts_walker_expr_call : list (string * list tt) := let S := at_ "" in [].
Definition strs_walker_expr_call : list (string * string) :=
  [("( no tag )", "(no tag)");
   ("5 > Err ( ( ) ) |", "   5>    Err(())
    |");
   ("< hooq_root > / tests / walker / expr / call . rs", "<hooq_root>/tests/walker/expr/call.rs");
   ("[ { 0 } : { 1 } : { 2 } ] { 3 : ? } { 4 }", "[{0}:{1}:{2}] {3:?}
{4}
");
   ("tag : { 0 }", "tag: {0}
")].
Definition ends_walker_expr_call : list (N * N * (N * N * string)) :=
  [(3, 2, (3, 8, "")); (4, 8, (4, 10, "")); (4, 21, (4, 23, "")); (4, 25, (4, 27, "")); (4, 29, (6, 2, "")); (5, 8, (5, 12, "")); (5, 9, (5, 11, "")); (8, 2, (8, 8, "")); (9, 2, (11, 5, "")); (9, 15, (11, 4, "")); (9, 24, (11, 3, "")); (9, 29, (11, 2, "")); (10, 13, (10, 30, "")); (10, 14, (10, 23, """tag: {}""")); (12, 2, (12, 26, "")); (12, 15, (12, 25, """(no tag)""")); (13, 2, (13, 39, "")); (13, 25, (13, 38, "")); (13, 26, (13, 30, """Ok""")); (13, 32, (13, 37, """Err""")); (14, 8, (14, 10, "")); (14, 21, (14, 23, "")); (14, 25, (14, 27, "")); (14, 29, (22, 2, "")); (15, 5, (19, 7, "")); (15, 16, (19, 6, "")); (16, 13, (16, 15, "")); (18, 12, (18, 16, "")); (18, 13, (18, 15, "")); (19, 7, (19, 29, "")); (19, 12, (19, 14, "")); (19, 21, (19, 23, "")); (21, 8, (21, 12, "")); (21, 9, (21, 11, "")); (24, 2, (24, 8, "")); (25, 8, (25, 10, "")); (25, 11, (27, 2, "")); (26, 9, (26, 11, "")); (26, 22, (26, 24, ""))].
Definition su_walker_expr_call : setup := mk_setup (mk_features false false true false false "hooq") doc_walker_expr_call texts_walker_expr_call strs_walker_expr_call [] ends_walker_expr_call "call".
Definition it_walker_expr_call_0 : item := let S := at_ "<hooq_root>/tests/walker/expr/call.rs" in
  (IFn [] [] (mk_sig "hoge" (RetPath (mk_path false [mk_seg "Result" [O S "<" 4 20; G S Parenth [] 4 21; O S "," 4 23; G S Parenth [] 4 25; O S ">" 4 27] (S 4 14)])) [I S "fn" 4 1; I S "hoge" 4 4; G S Parenth [] 4 8; O S "-" 4 11; O S ">" 4 12; I S "Result" 4 14; O S "<" 4 20; G S Parenth [] 4 21; O S "," 4 23; G S Parenth [] 4 25; O S ">" 4 27]) (S 4 29) [(SExpr (ECall [] (EPath [] (mk_path false [mk_seg "Err" [] (S 5 5)])) (S 5 8) [(ETuple [] (S 5 9) [] [])] []) None)]).
Definition args_walker_expr_call_0 : list meta := let S := at_ "<hooq_root>/tests/walker/expr/call.rs" in [].
Definition rec_walker_expr_call_0 : list string :=
  ["fn hoge ( ) - > Result < ( ) , ( ) > { Err ( ( ) ) . inspect_err ( | e | { let path = ""<hooq_root>/tests/walker/expr/call.rs"" ; let line = 5usize ;";
   "let col = 5usize ; let expr = ""\s\s\s5>\s\s\s\sErr(())\n\s\s\s\s|"" ; { : : std : : io : : _eprint ( format_args ! ( ""[{0}:{1}:{2}]\s{3:?}\n{4}\n"" ,";
   "path , line , col , e , expr ) ) ; } ; } ) }"].
Definition it_walker_expr_call_1 : item := let S := at_ "<hooq_root>/tests/walker/expr/call.rs" in
  (IFn [mk_attr false (S 9 1) (MList (mk_path false [mk_seg "hooq" [] (S 9 3); mk_seg "method" [] (S 9 9)]) Parenth [O S "." 9 16; I S "inspect" 9 17; G S Parenth [O S "|" 9 25; I S "_" 9 26; O S "|" 9 27; G S Brace [I S "println" 10 5; O S "!" 10 12; G S Parenth [L S (LStr "tag: {}") 10 14; O S "," 10 23; O S "$" 10 25; I S "tag" 10 26] 10 13; O S ";" 10 30] 9 29] 9 24] (S 9 15)); mk_attr false (S 12 1) (MNameValue (mk_path false [mk_seg "hooq" [] (S 12 3); mk_seg "tag" [] (S 12 9)]) (VStr "(no tag)" (S 12 15))); mk_attr false (S 13 1) (MList (mk_path false [mk_seg "hooq" [] (S 13 3); mk_seg "tail_expr_idents" [] (S 13 9)]) Parenth [L S (LStr "Ok") 13 26; O S "," 13 30; L S (LStr "Err") 13 32] (S 13 25))] [] (mk_sig "func" (RetPath (mk_path false [mk_seg "Result" [O S "<" 14 20; G S Parenth [] 14 21; O S "," 14 23; G S Parenth [] 14 25; O S ">" 14 27] (S 14 14)])) [I S "fn" 14 1; I S "func" 14 4; G S Parenth [] 14 8; O S "-" 14 11; O S ">" 14 12; I S "Result" 14 14; O S "<" 14 20; G S Parenth [] 14 21; O S "," 14 23; G S Parenth [] 14 25; O S ">" 14 27]) (S 14 29) [(SExpr (ETry [] (ECall [] (EParen [] (S 15 5) (EClosure [] [O S "|" 15 6; I S "_" 15 7; O S "," 15 8; I S "_" 15 10; O S "," 15 11; I S "_" 15 13; O S "|" 15 14] RetNone (EBlock [] [] (S 15 16) [(SExpr (ETry [] (ECall [] (EPath [] (mk_path false [mk_seg "hoge" [] (S 16 9)])) (S 16 13) [] []) (S 16 15)) (Some (S 16 16))); (SExpr (ECall [] (EPath [] (mk_path false [mk_seg "Err" [] (S 18 9)])) (S 18 12) [(ETuple [] (S 18 13) [] [])] []) None)]))) (S 19 7) [(ETry [] (ECall [] (EPath [] (mk_path false [mk_seg "hoge" [] (S 19 8)])) (S 19 12) [] []) (S 19 14)); (ETry [] (ECall [] (EPath [] (mk_path false [mk_seg "hoge" [] (S 19 17)])) (S 19 21) [] []) (S 19 23)); (ELit [] (LOther "10") (S 19 26))] [O S "," 19 15; O S "," 19 24]) (S 19 29)) (Some (S 19 30))); (SExpr (ECall [] (EPath [] (mk_path false [mk_seg "Err" [] (S 21 5)])) (S 21 8) [(ETuple [] (S 21 9) [] [])] []) None)]).
Definition args_walker_expr_call_1 : list meta := let S := at_ "<hooq_root>/tests/walker/expr/call.rs" in [].
Definition rec_walker_expr_call_1 : list string :=
  ["fn func ( ) - > Result < ( ) , ( ) > { ( | _ , _ , _ | { hoge ( ) . inspect ( | _ | { { : : std : : io : : _print ( format_args ! ( ""tag:\s{0}\n"" ,";
   """(no\stag)"" ) ) ; } ; } ) ? ; Err ( ( ) ) . inspect ( | _ | { { : : std : : io : : _print ( format_args ! ( ""tag:\s{0}\n"" , ""(no\stag)"" ) ) ; } ; } )";
   "} ) ( hoge ( ) . inspect ( | _ | { { : : std : : io : : _print ( format_args ! ( ""tag:\s{0}\n"" , ""(no\stag)"" ) ) ; } ; } ) ? , hoge ( ) . inspect ( |";
   "_ | { { : : std : : io : : _print ( format_args ! ( ""tag:\s{0}\n"" , ""(no\stag)"" ) ) ; } ; } ) ? , 10 ) . inspect ( | _ | { { : : std : : io : : _print";
   "( format_args ! ( ""tag:\s{0}\n"" , ""(no\stag)"" ) ) ; } ; } ) ? ; Err ( ( ) ) . inspect ( | _ | { { : : std : : io : : _print ( format_args ! (";
   """tag:\s{0}\n"" , ""(no\stag)"" ) ) ; } ; } ) }"].
(** hoge *)
Example recorded_walker_expr_call_0 : expanded su_walker_expr_call args_walker_expr_call_0 it_walker_expr_call_0 = words rec_walker_expr_call_0.
Proof. vm_compute. reflexivity. Qed.
(** func *)
Example recorded_walker_expr_call_1 : expanded su_walker_expr_call args_walker_expr_call_1 it_walker_expr_call_1 = words rec_walker_expr_call_1.
Proof. vm_compute. reflexivity. Qed.
(** ** hooq-macros/tests/walker/expr/cast.rs *)
Definition doc_walker_expr_cast : list (string * ftable) := [].
Definition texts_walker_expr_cast : list (string * list tt) := let S := at_ "" in [].
Definition strs_walker_expr_cast : list (string * string) :=
  [("( no tag )", "(no tag)");
   ("tag : { 0 }", "tag: {0}
")].
Definition ends_walker_expr_cast : list (N * N * (N * N * string)) :=
  [(3, 2, (3, 8, "")); (4, 8, (4, 10, "")); (4, 26, (4, 28, "")); (4, 30, (6, 2, "")); (5, 7, (5, 11, "")); (8, 2, (8, 8, "")); (9, 2, (11, 5, "")); (9, 15, (11, 4, "")); (9, 24, (11, 3, "")); (9, 29, (11, 2, "")); (10, 13, (10, 30, "")); (10, 14, (10, 23, """tag: {}""")); (12, 2, (12, 26, "")); (12, 15, (12, 25, """(no tag)""")); (13, 8, (13, 10, "")); (13, 21, (13, 23, "")); (13, 25, (13, 27, "")); (13, 29, (17, 2, "")); (14, 17, (14, 19, "")); (16, 8, (16, 12, "")); (16, 9, (16, 11, "")); (19, 2, (19, 8, "")); (20, 8, (20, 10, "")); (20, 11, (22, 2, "")); (21, 9, (21, 11, "")); (21, 22, (21, 24, ""))].
Definition su_walker_expr_cast : setup := mk_setup (mk_features false false true false false "hooq") doc_walker_expr_cast texts_walker_expr_cast strs_walker_expr_cast [] ends_walker_expr_cast "cast".
Definition it_walker_expr_cast_0 : item := let S := at_ "hooq-macros/tests/walker/expr/cast.rs" in
  (IFn [] [] (mk_sig "hoge" (RetPath (mk_path false [mk_seg "Result" [O S "<" 4 20; I S "u32" 4 21; O S "," 4 24; G S Parenth [] 4 26; O S ">" 4 28] (S 4 14)])) [I S "fn" 4 1; I S "hoge" 4 4; G S Parenth [] 4 8; O S "-" 4 11; O S ">" 4 12; I S "Result" 4 14; O S "<" 4 20; I S "u32" 4 21; O S "," 4 24; G S Parenth [] 4 26; O S ">" 4 28]) (S 4 30) [(SExpr (ECall [] (EPath [] (mk_path false [mk_seg "Ok" [] (S 5 5)])) (S 5 7) [(ELit [] (LOther "10") (S 5 8))] []) None)]).
Definition args_walker_expr_cast_0 : list meta := let S := at_ "hooq-macros/tests/walker/expr/cast.rs" in [].
Definition rec_walker_expr_cast_0 : list string :=
  ["fn hoge ( ) - > Result < u32 , ( ) > { Ok ( 10 ) }"].
Definition it_walker_expr_cast_1 : item := let S := at_ "hooq-macros/tests/walker/expr/cast.rs" in
  (IFn [mk_attr false (S 9 1) (MList (mk_path false [mk_seg "hooq" [] (S 9 3); mk_seg "method" [] (S 9 9)]) Parenth [O S "." 9 16; I S "inspect" 9 17; G S Parenth [O S "|" 9 25; I S "_" 9 26; O S "|" 9 27; G S Brace [I S "println" 10 5; O S "!" 10 12; G S Parenth [L S (LStr "tag: {}") 10 14; O S "," 10 23; O S "$" 10 25; I S "tag" 10 26] 10 13; O S ";" 10 30] 9 29] 9 24] (S 9 15)); mk_attr false (S 12 1) (MNameValue (mk_path false [mk_seg "hooq" [] (S 12 3); mk_seg "tag" [] (S 12 9)]) (VStr "(no tag)" (S 12 15)))] [] (mk_sig "func" (RetPath (mk_path false [mk_seg "Result" [O S "<" 13 20; G S Parenth [] 13 21; O S "," 13 23; G S Parenth [] 13 25; O S ">" 13 27] (S 13 14)])) [I S "fn" 13 1; I S "func" 13 4; G S Parenth [] 13 8; O S "-" 13 11; O S ">" 13 12; I S "Result" 13 14; O S "<" 13 20; G S Parenth [] 13 21; O S "," 13 23; G S Parenth [] 13 25; O S ">" 13 27]) (S 13 29) [(SLocalInit [] [I S "let" 14 5; I S "_" 14 9; O S "=" 14 11] (ECast [] (ETry [] (ECall [] (EPath [] (mk_path false [mk_seg "hoge" [] (S 14 13)])) (S 14 17) [] []) (S 14 19)) [I S "as" 14 21; I S "i64" 14 24]) [] None [O S ";" 14 27]); (SExpr (ECall [] (EPath [] (mk_path false [mk_seg "Err" [] (S 16 5)])) (S 16 8) [(ETuple [] (S 16 9) [] [])] []) None)]).
Definition args_walker_expr_cast_1 : list meta := let S := at_ "hooq-macros/tests/walker/expr/cast.rs" in [].
Definition rec_walker_expr_cast_1 : list string :=
  ["fn func ( ) - > Result < ( ) , ( ) > { let _ = hoge ( ) . inspect ( | _ | { { : : std : : io : : _print ( format_args ! ( ""tag:\s{0}\n"" , ""(no\stag)""";
   ") ) ; } ; } ) ? as i64 ; Err ( ( ) ) . inspect ( | _ | { { : : std : : io : : _print ( format_args ! ( ""tag:\s{0}\n"" , ""(no\stag)"" ) ) ; } ; } ) }"].
(** hoge *)
Example recorded_walker_expr_cast_0 : expanded su_walker_expr_cast args_walker_expr_cast_0 it_walker_expr_cast_0 = words rec_walker_expr_cast_0.
Proof. vm_compute. reflexivity. Qed.
(** func *)
Example recorded_walker_expr_cast_1 : expanded su_walker_expr_cast args_walker_expr_cast_1 it_walker_expr_cast_1 = words rec_walker_expr_cast_1.
Proof. vm_compute. reflexivity. Qed.
(** ** hooq-macros/tests/walker/expr/closure.rs *)
Definition doc_walker_expr_closure : list (string * ftable) := [].
Definition texts_walker_expr_closure : list (string * list tt) := let S := at_ "" in [].
Definition strs_walker_expr_closure : list (string * string) :=
  [("( no tag )", "(no tag)");
   ("6 > return Err ( ( ) ) |", "   6>    return Err(())
    |");
   ("< hooq_root > / tests / walker / expr / closure . rs", "<hooq_root>/tests/walker/expr/closure.rs");
   ("Expr is Result Type ( Block )", "Expr is Result Type (Block)");
   ("Expr is Result Type ( Single Expr )", "Expr is Result Type (Single Expr)");
   ("No Result Type ( Block )", "No Result Type (Block)");
   ("No Result Type ( Single Expr )", "No Result Type (Single Expr)");
   ("Result Type Annotated ( Block )", "Result Type Annotated (Block)");
   ("[ { 0 } : { 1 } : { 2 } ] { 3 : ? } { 4 }", "[{0}:{1}:{2}] {3:?}
{4}
");
   ("tag : { 0 }", "tag: {0}
")].
Definition ends_walker_expr_closure : list (N * N * (N * N * string)) :=
  [(3, 2, (3, 8, "")); (4, 9, (4, 25, "")); (4, 41, (4, 43, "")); (4, 45, (9, 2, "")); (5, 14, (7, 6, "")); (6, 19, (6, 23, "")); (6, 20, (6, 22, "")); (8, 7, (8, 14, "")); (11, 2, (11, 8, "")); (12, 7, (12, 9, "")); (12, 25, (12, 27, "")); (12, 29, (14, 2, "")); (13, 7, (13, 10, "")); (16, 2, (16, 8, "")); (17, 2, (19, 5, "")); (17, 15, (19, 4, "")); (17, 24, (19, 3, "")); (17, 29, (19, 2, "")); (18, 13, (18, 30, "")); (18, 14, (18, 23, """tag: {}""")); (20, 2, (20, 26, "")); (20, 15, (20, 25, """(no tag)""")); (21, 2, (21, 39, "")); (21, 25, (21, 38, "")); (21, 26, (21, 30, """Ok""")); (21, 32, (21, 37, """Err""")); (22, 8, (22, 10, "")); (22, 21, (22, 23, "")); (22, 25, (22, 27, "")); (22, 29, (62, 2, "")); (23, 6, (23, 44, "")); (23, 19, (23, 43, """No Result Type (Block)""")); (24, 17, (27, 6, "")); (25, 14, (25, 20, "")); (26, 14, (26, 25, "")); (26, 21, (26, 23, "")); (29, 6, (29, 51, "")); (29, 19, (29, 50, """Result Type Annotated (Block)""")); (30, 37, (30, 39, "")); (30, 41, (33, 6, "")); (31, 14, (31, 20, "")); (32, 14, (32, 25, "")); (32, 21, (32, 23, "")); (35, 6, (35, 49, "")); (35, 19, (35, 48, """Expr is Result Type (Block)""")); (36, 17, (45, 6, "")); (37, 14, (37, 20, "")); (38, 14, (38, 25, "")); (38, 21, (38, 23, "")); (40, 20, (42, 10, "")); (41, 23, (41, 27, "")); (41, 24, (41, 26, "")); (44, 11, (44, 29, "")); (44, 17, (44, 23, "")); (47, 6, (47, 50, "")); (47, 19, (47, 49, """No Result Type (Single Expr)""")); (48, 22, (48, 33, "")); (48, 29, (48, 31, "")); (50, 6, (50, 55, "")); (50, 19, (50, 54, """Expr is Result Type (Single Expr)""")); (51, 17, (59, 6, "")); (52, 11, (58, 11, "")); (52, 12, (58, 10, "")); (53, 24, (55, 14, "")); (54, 27, (54, 31, "")); (54, 28, (54, 30, "")); (57, 18, (57, 24, "")); (57, 33, (57, 44, "")); (57, 40, (57, 42, "")); (61, 8, (61, 12, "")); (61, 9, (61, 11, "")); (64, 2, (64, 8, "")); (65, 8, (65, 10, "")); (65, 11, (67, 2, "")); (66, 9, (66, 11, "")); (66, 22, (66, 24, ""))].
Definition su_walker_expr_closure : setup := mk_setup (mk_features false false true false false "hooq") doc_walker_expr_closure texts_walker_expr_closure strs_walker_expr_closure [] ends_walker_expr_closure "closure".
Definition it_walker_expr_closure_0 : item := let S := at_ "<hooq_root>/tests/walker/expr/closure.rs" in
  (IFn [] [] (mk_sig "minus" (RetPath (mk_path false [mk_seg "Result" [O S "<" 4 35; I S "u32" 4 36; O S "," 4 39; G S Parenth [] 4 41; O S ">" 4 43] (S 4 29)])) [I S "fn" 4 1; I S "minus" 4 4; G S Parenth [I S "x" 4 10; O S ":" 4 11; I S "u32" 4 13; O S "," 4 16; I S "y" 4 18; O S ":" 4 19; I S "u32" 4 21] 4 9; O S "-" 4 26; O S ">" 4 27; I S "Result" 4 29; O S "<" 4 35; I S "u32" 4 36; O S "," 4 39; G S Parenth [] 4 41; O S ">" 4 43]) (S 4 45) [(SExpr (EIf [] [I S "if" 5 5] (EBinary [] (EPath [] (mk_path false [mk_seg "y" [] (S 5 8)])) [O S ">" 5 10] (EPath [] (mk_path false [mk_seg "x" [] (S 5 12)]))) (S 5 14) [(SExpr (EReturn [] (S 6 9) (Some (ECall [] (EPath [] (mk_path false [mk_seg "Err" [] (S 6 16)])) (S 6 19) [(ETuple [] (S 6 20) [] [])] []))) (Some (S 6 23)))] [] None) None); (SExpr (ECall [] (EPath [] (mk_path false [mk_seg "Ok" [] (S 8 5)])) (S 8 7) [(EBinary [] (EPath [] (mk_path false [mk_seg "x" [] (S 8 8)])) [O S "-" 8 10] (EPath [] (mk_path false [mk_seg "y" [] (S 8 12)])))] []) None)]).
Definition args_walker_expr_closure_0 : list meta := let S := at_ "<hooq_root>/tests/walker/expr/closure.rs" in [].
Definition rec_walker_expr_closure_0 : list string :=
  ["fn minus ( x : u32 , y : u32 ) - > Result < u32 , ( ) > { if y > x { return Err ( ( ) ) . inspect_err ( | e | { let path =";
   """<hooq_root>/tests/walker/expr/closure.rs"" ; let line = 6usize ; let col = 9usize ; let expr = ""\s\s\s6>\s\s\s\sreturn\sErr(())\n\s\s\s\s|"" ; { : :";
   "std : : io : : _eprint ( format_args ! ( ""[{0}:{1}:{2}]\s{3:?}\n{4}\n"" , path , line , col , e , expr ) ) ; } ; } ) ; } Ok ( x - y ) }"].
Definition it_walker_expr_closure_1 : item := let S := at_ "<hooq_root>/tests/walker/expr/closure.rs" in
  (IFn [] [] (mk_sig "two" (RetPath (mk_path false [mk_seg "Result" [O S "<" 12 19; I S "u32" 12 20; O S "," 12 23; G S Parenth [] 12 25; O S ">" 12 27] (S 12 13)])) [I S "fn" 12 1; I S "two" 12 4; G S Parenth [] 12 7; O S "-" 12 10; O S ">" 12 11; I S "Result" 12 13; O S "<" 12 19; I S "u32" 12 20; O S "," 12 23; G S Parenth [] 12 25; O S ">" 12 27]) (S 12 29) [(SExpr (ECall [] (EPath [] (mk_path false [mk_seg "Ok" [] (S 13 5)])) (S 13 7) [(ELit [] (LOther "2") (S 13 8))] []) None)]).
Definition args_walker_expr_closure_1 : list meta := let S := at_ "<hooq_root>/tests/walker/expr/closure.rs" in [].
Definition rec_walker_expr_closure_1 : list string :=
  ["fn two ( ) - > Result < u32 , ( ) > { Ok ( 2 ) }"].
Definition it_walker_expr_closure_2 : item := let S := at_ "<hooq_root>/tests/walker/expr/closure.rs" in
  (IFn [mk_attr false (S 17 1) (MList (mk_path false [mk_seg "hooq" [] (S 17 3); mk_seg "method" [] (S 17 9)]) Parenth [O S "." 17 16; I S "inspect" 17 17; G S Parenth [O S "|" 17 25; I S "_" 17 26; O S "|" 17 27; G S Brace [I S "println" 18 5; O S "!" 18 12; G S Parenth [L S (LStr "tag: {}") 18 14; O S "," 18 23; O S "$" 18 25; I S "tag" 18 26] 18 13; O S ";" 18 30] 17 29] 17 24] (S 17 15)); mk_attr false (S 20 1) (MNameValue (mk_path false [mk_seg "hooq" [] (S 20 3); mk_seg "tag" [] (S 20 9)]) (VStr "(no tag)" (S 20 15))); mk_attr false (S 21 1) (MList (mk_path false [mk_seg "hooq" [] (S 21 3); mk_seg "tail_expr_idents" [] (S 21 9)]) Parenth [L S (LStr "Ok") 21 26; O S "," 21 30; L S (LStr "Err") 21 32] (S 21 25))] [] (mk_sig "func" (RetPath (mk_path false [mk_seg "Result" [O S "<" 22 20; G S Parenth [] 22 21; O S "," 22 23; G S Parenth [] 22 25; O S ">" 22 27] (S 22 14)])) [I S "fn" 22 1; I S "func" 22 4; G S Parenth [] 22 8; O S "-" 22 11; O S ">" 22 12; I S "Result" 22 14; O S "<" 22 20; G S Parenth [] 22 21; O S "," 22 23; G S Parenth [] 22 25; O S ">" 22 27]) (S 22 29) [(SLocalInit [mk_attr false (S 23 5) (MNameValue (mk_path false [mk_seg "hooq" [] (S 23 7); mk_seg "tag" [] (S 23 13)]) (VStr "No Result Type (Block)" (S 23 19)))] [I S "let" 24 5; I S "_" 24 9; O S "=" 24 11] (EClosure [] [O S "|" 24 13; I S "v" 24 14; O S "|" 24 15] RetNone (EBlock [] [] (S 24 17) [(SExpr (ETry [] (ECall [] (EPath [] (mk_path false [mk_seg "minus" [] (S 25 9)])) (S 25 14) [(EPath [] (mk_path false [mk_seg "v" [] (S 25 15)])); (ELit [] (LOther "1") (S 25 18))] [O S "," 25 16]) (S 25 20)) (Some (S 25 21))); (SExpr (ECall [] (EPath [] (mk_path false [mk_seg "minus" [] (S 26 9)])) (S 26 14) [(EPath [] (mk_path false [mk_seg "v" [] (S 26 15)])); (ETry [] (ECall [] (EPath [] (mk_path false [mk_seg "two" [] (S 26 18)])) (S 26 21) [] []) (S 26 23))] [O S "," 26 16]) None)])) [] None [O S ";" 27 6]); (SLocalInit [mk_attr false (S 29 5) (MNameValue (mk_path false [mk_seg "hooq" [] (S 29 7); mk_seg "tag" [] (S 29 13)]) (VStr "Result Type Annotated (Block)" (S 29 19)))] [I S "let" 30 5; I S "_" 30 9; O S "=" 30 11] (EClosure [] [O S "|" 30 13; I S "v" 30 14; O S ":" 30 15; I S "u32" 30 17; O S "|" 30 20; O S "-" 30 22; O S ">" 30 23; I S "Result" 30 25; O S "<" 30 31; I S "u32" 30 32; O S "," 30 35; G S Parenth [] 30 37; O S ">" 30 39] (RetPath (mk_path false [mk_seg "Result" [O S "<" 30 31; I S "u32" 30 32; O S "," 30 35; G S Parenth [] 30 37; O S ">" 30 39] (S 30 25)])) (EBlock [] [] (S 30 41) [(SExpr (ETry [] (ECall [] (EPath [] (mk_path false [mk_seg "minus" [] (S 31 9)])) (S 31 14) [(EPath [] (mk_path false [mk_seg "v" [] (S 31 15)])); (ELit [] (LOther "1") (S 31 18))] [O S "," 31 16]) (S 31 20)) (Some (S 31 21))); (SExpr (ECall [] (EPath [] (mk_path false [mk_seg "minus" [] (S 32 9)])) (S 32 14) [(EPath [] (mk_path false [mk_seg "v" [] (S 32 15)])); (ETry [] (ECall [] (EPath [] (mk_path false [mk_seg "two" [] (S 32 18)])) (S 32 21) [] []) (S 32 23))] [O S "," 32 16]) None)])) [] None [O S ";" 33 6]); (SLocalInit [mk_attr false (S 35 5) (MNameValue (mk_path false [mk_seg "hooq" [] (S 35 7); mk_seg "tag" [] (S 35 13)]) (VStr "Expr is Result Type (Block)" (S 35 19)))] [I S "let" 36 5; I S "_" 36 9; O S "=" 36 11] (EClosure [] [O S "|" 36 13; I S "v" 36 14; O S "|" 36 15] RetNone (EBlock [] [] (S 36 17) [(SExpr (ETry [] (ECall [] (EPath [] (mk_path false [mk_seg "minus" [] (S 37 9)])) (S 37 14) [(EPath [] (mk_path false [mk_seg "v" [] (S 37 15)])); (ELit [] (LOther "1") (S 37 18))] [O S "," 37 16]) (S 37 20)) (Some (S 37 21))); (SExpr (ETry [] (ECall [] (EPath [] (mk_path false [mk_seg "minus" [] (S 38 9)])) (S 38 14) [(EPath [] (mk_path false [mk_seg "v" [] (S 38 15)])); (ETry [] (ECall [] (EPath [] (mk_path false [mk_seg "two" [] (S 38 18)])) (S 38 21) [] []) (S 38 23))] [O S "," 38 16]) (S 38 25)) (Some (S 38 26))); (SExpr (EIf [] [I S "if" 40 9] (EBinary [] (EPath [] (mk_path false [mk_seg "v" [] (S 40 12)])) [O S ">" 40 14] (ELit [] (LOther "100") (S 40 16))) (S 40 20) [(SExpr (EReturn [] (S 41 13) (Some (ECall [] (EPath [] (mk_path false [mk_seg "Err" [] (S 41 20)])) (S 41 23) [(ETuple [] (S 41 24) [] [])] []))) (Some (S 41 27)))] [] None) None); (SExpr (ECall [] (EPath [] (mk_path false [mk_seg "Ok" [] (S 44 9)])) (S 44 11) [(EBinary [] (ETry [] (ECall [] (EPath [] (mk_path false [mk_seg "minus" [] (S 44 12)])) (S 44 17) [(EPath [] (mk_path false [mk_seg "v" [] (S 44 18)])); (ELit [] (LOther "3") (S 44 21))] [O S "," 44 19]) (S 44 23)) [O S "+" 44 25] (ELit [] (LOther "1") (S 44 27)))] []) None)])) [] None [O S ";" 45 6]); (SLocalInit [mk_attr false (S 47 5) (MNameValue (mk_path false [mk_seg "hooq" [] (S 47 7); mk_seg "tag" [] (S 47 13)]) (VStr "No Result Type (Single Expr)" (S 47 19)))] [I S "let" 48 5; I S "_" 48 9; O S "=" 48 11] (EClosure [] [O S "|" 48 13; I S "v" 48 14; O S "|" 48 15] RetNone (ECall [] (EPath [] (mk_path false [mk_seg "minus" [] (S 48 17)])) (S 48 22) [(EPath [] (mk_path false [mk_seg "v" [] (S 48 23)])); (ETry [] (ECall [] (EPath [] (mk_path false [mk_seg "two" [] (S 48 26)])) (S 48 29) [] []) (S 48 31))] [O S "," 48 24])) [] None [O S ";" 48 33]); (SLocalInit [mk_attr false (S 50 5) (MNameValue (mk_path false [mk_seg "hooq" [] (S 50 7); mk_seg "tag" [] (S 50 13)]) (VStr "Expr is Result Type (Single Expr)" (S 50 19)))] [I S "let" 51 5; I S "_" 51 9; O S "=" 51 11] (EClosure [] [O S "|" 51 13; I S "v" 51 14; O S "|" 51 15] RetNone (EBlock [] [] (S 51 17) [(SExpr (ECall [] (EPath [] (mk_path false [mk_seg "Ok" [] (S 52 9)])) (S 52 11) [(EBlock [] [] (S 52 12) [(SExpr (EIf [] [I S "if" 53 13] (EBinary [] (EPath [] (mk_path false [mk_seg "v" [] (S 53 16)])) [O S ">" 53 18] (ELit [] (LOther "100") (S 53 20))) (S 53 24) [(SExpr (EReturn [] (S 54 17) (Some (ECall [] (EPath [] (mk_path false [mk_seg "Err" [] (S 54 24)])) (S 54 27) [(ETuple [] (S 54 28) [] [])] []))) (Some (S 54 31)))] [] None) None); (SExpr (EBinary [] (EBinary [] (ETry [] (ECall [] (EPath [] (mk_path false [mk_seg "minus" [] (S 57 13)])) (S 57 18) [(EPath [] (mk_path false [mk_seg "v" [] (S 57 19)])); (ELit [] (LOther "1") (S 57 22))] [O S "," 57 20]) (S 57 24)) [O S "+" 57 26] (ETry [] (ECall [] (EPath [] (mk_path false [mk_seg "minus" [] (S 57 28)])) (S 57 33) [(EPath [] (mk_path false [mk_seg "v" [] (S 57 34)])); (ETry [] (ECall [] (EPath [] (mk_path false [mk_seg "two" [] (S 57 37)])) (S 57 40) [] []) (S 57 42))] [O S "," 57 35]) (S 57 44))) [O S "+" 57 46] (ELit [] (LOther "1") (S 57 48))) None)])] []) None)])) [] None [O S ";" 59 6]); (SExpr (ECall [] (EPath [] (mk_path false [mk_seg "Err" [] (S 61 5)])) (S 61 8) [(ETuple [] (S 61 9) [] [])] []) None)]).
Definition args_walker_expr_closure_2 : list meta := let S := at_ "<hooq_root>/tests/walker/expr/closure.rs" in [].
Definition rec_walker_expr_closure_2 : list string :=
  ["fn func ( ) - > Result < ( ) , ( ) > { let _ = | v | { minus ( v , 1 ) . inspect ( | _ | { { : : std : : io : : _print ( format_args ! ( ""tag:\s{0}\n""";
   ", ""No\sResult\sType\s(Block)"" ) ) ; } ; } ) ? ; minus ( v , two ( ) . inspect ( | _ | { { : : std : : io : : _print ( format_args ! ( ""tag:\s{0}\n"" ,";
   """No\sResult\sType\s(Block)"" ) ) ; } ; } ) ? ) } ; let _ = | v : u32 | - > Result < u32 , ( ) > { minus ( v , 1 ) . inspect ( | _ | { { : : std : : io";
   ": : _print ( format_args ! ( ""tag:\s{0}\n"" , ""Result\sType\sAnnotated\s(Block)"" ) ) ; } ; } ) ? ; minus ( v , two ( ) . inspect ( | _ | { { : : std :";
   ": io : : _print ( format_args ! ( ""tag:\s{0}\n"" , ""Result\sType\sAnnotated\s(Block)"" ) ) ; } ; } ) ? ) . inspect ( | _ | { { : : std : : io : : _print";
   "( format_args ! ( ""tag:\s{0}\n"" , ""Result\sType\sAnnotated\s(Block)"" ) ) ; } ; } ) } ; let _ = | v | { minus ( v , 1 ) . inspect ( | _ | { { : : std :";
   ": io : : _print ( format_args ! ( ""tag:\s{0}\n"" , ""Expr\sis\sResult\sType\s(Block)"" ) ) ; } ; } ) ? ; minus ( v , two ( ) . inspect ( | _ | { { : :";
   "std : : io : : _print ( format_args ! ( ""tag:\s{0}\n"" , ""Expr\sis\sResult\sType\s(Block)"" ) ) ; } ; } ) ? ) . inspect ( | _ | { { : : std : : io : :";
   "_print ( format_args ! ( ""tag:\s{0}\n"" , ""Expr\sis\sResult\sType\s(Block)"" ) ) ; } ; } ) ? ; if v > 100 { return Err ( ( ) ) . inspect ( | _ | { { : :";
   "std : : io : : _print ( format_args ! ( ""tag:\s{0}\n"" , ""Expr\sis\sResult\sType\s(Block)"" ) ) ; } ; } ) ; } Ok ( minus ( v , 3 ) . inspect ( | _ | { {";
   ": : std : : io : : _print ( format_args ! ( ""tag:\s{0}\n"" , ""Expr\sis\sResult\sType\s(Block)"" ) ) ; } ; } ) ? + 1 ) . inspect ( | _ | { { : : std : :";
   "io : : _print ( format_args ! ( ""tag:\s{0}\n"" , ""Expr\sis\sResult\sType\s(Block)"" ) ) ; } ; } ) } ; let _ = | v | minus ( v , two ( ) . inspect ( | _";
   "| { { : : std : : io : : _print ( format_args ! ( ""tag:\s{0}\n"" , ""No\sResult\sType\s(Single\sExpr)"" ) ) ; } ; } ) ? ) ; let _ = | v | Ok ( { if v >";
   "100 { return Err ( ( ) ) . inspect ( | _ | { { : : std : : io : : _print ( format_args ! ( ""tag:\s{0}\n"" , ""Expr\sis\sResult\sType\s(Single\sExpr)"" )";
   ") ; } ; } ) ; } minus ( v , 1 ) . inspect ( | _ | { { : : std : : io : : _print ( format_args ! ( ""tag:\s{0}\n"" ,";
   """Expr\sis\sResult\sType\s(Single\sExpr)"" ) ) ; } ; } ) ? + minus ( v , two ( ) . inspect ( | _ | { { : : std : : io : : _print ( format_args ! (";
   """tag:\s{0}\n"" , ""Expr\sis\sResult\sType\s(Single\sExpr)"" ) ) ; } ; } ) ? ) . inspect ( | _ | { { : : std : : io : : _print ( format_args ! (";
   """tag:\s{0}\n"" , ""Expr\sis\sResult\sType\s(Single\sExpr)"" ) ) ; } ; } ) ? + 1 } ) . inspect ( | _ | { { : : std : : io : : _print ( format_args ! (";
   """tag:\s{0}\n"" , ""Expr\sis\sResult\sType\s(Single\sExpr)"" ) ) ; } ; } ) ; Err ( ( ) ) . inspect ( | _ | { { : : std : : io : : _print ( format_args ! (";
   """tag:\s{0}\n"" , ""(no\stag)"" ) ) ; } ; } ) }"].
(** minus *)
Example recorded_walker_expr_closure_0 : expanded su_walker_expr_closure args_walker_expr_closure_0 it_walker_expr_closure_0 = words rec_walker_expr_closure_0.
Proof. vm_compute. reflexivity. Qed.
(** two *)
Example recorded_walker_expr_closure_1 : expanded su_walker_expr_closure args_walker_expr_closure_1 it_walker_expr_closure_1 = words rec_walker_expr_closure_1.
Proof. vm_compute. reflexivity. Qed.
(** func *)
Example recorded_walker_expr_closure_2 : expanded su_walker_expr_closure args_walker_expr_closure_2 it_walker_expr_closure_2 = words rec_walker_expr_closure_2.
Proof. vm_compute. reflexivity. Qed.
(** ** hooq-macros/tests/walker/expr/const.rs *)
Definition doc_walker_expr_const : list (string * ftable) := [].
Definition texts_walker_expr_const : list (string * list tt) := let S := at_ "" in [].
Definition strs_walker_expr_const : list (string * string) :=
  [("( no tag )", "(no tag)");
   ("6 > Err ( ( ) ) |", "   6>    Err(())
    |");
   ("< hooq_root > / tests / walker / expr / const . rs", "<hooq_root>/tests/walker/expr/const.rs");
   ("[ { 0 } : { 1 } : { 2 } ] { 3 : ? } { 4 }", "[{0}:{1}:{2}] {3:?}
{4}
");
   ("tag : { 0 }", "tag: {0}
")].
Definition ends_walker_expr_const : list (N * N * (N * N * string)) :=
  [(3, 2, (3, 8, "")); (4, 2, (4, 17, "")); (4, 8, (4, 16, "")); (5, 8, (5, 10, "")); (5, 21, (5, 23, "")); (5, 25, (5, 27, "")); (5, 29, (7, 2, "")); (6, 8, (6, 12, "")); (6, 9, (6, 11, "")); (9, 2, (9, 8, "")); (10, 2, (12, 5, "")); (10, 15, (12, 4, "")); (10, 24, (12, 3, "")); (10, 29, (12, 2, "")); (11, 13, (11, 30, "")); (11, 14, (11, 23, """tag: {}""")); (13, 2, (13, 26, "")); (13, 15, (13, 25, """(no tag)""")); (14, 8, (14, 10, "")); (14, 21, (14, 23, "")); (14, 25, (14, 27, "")); (14, 29, (25, 2, "")); (15, 29, (22, 6, "")); (16, 10, (16, 40, "")); (16, 23, (16, 39, """in const block""")); (17, 14, (17, 16, "")); (17, 27, (17, 29, "")); (17, 31, (17, 33, "")); (17, 35, (20, 10, "")); (18, 17, (18, 19, "")); (19, 16, (19, 20, "")); (19, 17, (19, 19, "")); (24, 8, (24, 12, "")); (24, 9, (24, 11, "")); (27, 2, (27, 8, "")); (28, 8, (28, 10, "")); (28, 11, (30, 2, "")); (29, 9, (29, 11, "")); (29, 22, (29, 24, ""))].
Definition su_walker_expr_const : setup := mk_setup (mk_features false false true false false "hooq") doc_walker_expr_const texts_walker_expr_const strs_walker_expr_const [] ends_walker_expr_const "const".
Definition it_walker_expr_const_0 : item := let S := at_ "<hooq_root>/tests/walker/expr/const.rs" in
  (IFn [mk_attr false (S 4 1) (MList (mk_path false [mk_seg "allow" [] (S 4 3)]) Parenth [I S "unused" 4 9] (S 4 8))] [] (mk_sig "hoge" (RetPath (mk_path false [mk_seg "Result" [O S "<" 5 20; G S Parenth [] 5 21; O S "," 5 23; G S Parenth [] 5 25; O S ">" 5 27] (S 5 14)])) [I S "fn" 5 1; I S "hoge" 5 4; G S Parenth [] 5 8; O S "-" 5 11; O S ">" 5 12; I S "Result" 5 14; O S "<" 5 20; G S Parenth [] 5 21; O S "," 5 23; G S Parenth [] 5 25; O S ">" 5 27]) (S 5 29) [(SExpr (ECall [] (EPath [] (mk_path false [mk_seg "Err" [] (S 6 5)])) (S 6 8) [(ETuple [] (S 6 9) [] [])] []) None)]).
Definition args_walker_expr_const_0 : list meta := let S := at_ "<hooq_root>/tests/walker/expr/const.rs" in [].
Definition rec_walker_expr_const_0 : list string :=
  ["# [ allow ( unused ) ] fn hoge ( ) - > Result < ( ) , ( ) > { Err ( ( ) ) . inspect_err ( | e | { let path = ""<hooq_root>/tests/walker/expr/const.rs""";
   "; let line = 6usize ; let col = 5usize ; let expr = ""\s\s\s6>\s\s\s\sErr(())\n\s\s\s\s|"" ; { : : std : : io : : _eprint ( format_args ! (";
   """[{0}:{1}:{2}]\s{3:?}\n{4}\n"" , path , line , col , e , expr ) ) ; } ; } ) }"].
Definition it_walker_expr_const_1 : item := let S := at_ "<hooq_root>/tests/walker/expr/const.rs" in
  (IFn [mk_attr false (S 10 1) (MList (mk_path false [mk_seg "hooq" [] (S 10 3); mk_seg "method" [] (S 10 9)]) Parenth [O S "." 10 16; I S "inspect" 10 17; G S Parenth [O S "|" 10 25; I S "_" 10 26; O S "|" 10 27; G S Brace [I S "println" 11 5; O S "!" 11 12; G S Parenth [L S (LStr "tag: {}") 11 14; O S "," 11 23; O S "$" 11 25; I S "tag" 11 26] 11 13; O S ";" 11 30] 10 29] 10 24] (S 10 15)); mk_attr false (S 13 1) (MNameValue (mk_path false [mk_seg "hooq" [] (S 13 3); mk_seg "tag" [] (S 13 9)]) (VStr "(no tag)" (S 13 15)))] [] (mk_sig "func" (RetPath (mk_path false [mk_seg "Result" [O S "<" 14 20; G S Parenth [] 14 21; O S "," 14 23; G S Parenth [] 14 25; O S ">" 14 27] (S 14 14)])) [I S "fn" 14 1; I S "func" 14 4; G S Parenth [] 14 8; O S "-" 14 11; O S ">" 14 12; I S "Result" 14 14; O S "<" 14 20; G S Parenth [] 14 21; O S "," 14 23; G S Parenth [] 14 25; O S ">" 14 27]) (S 14 29) [(SItem (IConst [] [I S "const" 15 5; I S "_N" 15 11; O S ":" 15 13; I S "usize" 15 15; O S "=" 15 21] (EConst [] [I S "const" 15 23] (S 15 29) [(SItem (IFn [mk_attr false (S 16 9) (MNameValue (mk_path false [mk_seg "hooq" [] (S 16 11); mk_seg "tag" [] (S 16 17)]) (VStr "in const block" (S 16 23)))] [] (mk_sig "_f" (RetPath (mk_path false [mk_seg "Result" [O S "<" 17 26; G S Parenth [] 17 27; O S "," 17 29; G S Parenth [] 17 31; O S ">" 17 33] (S 17 20)])) [I S "fn" 17 9; I S "_f" 17 12; G S Parenth [] 17 14; O S "-" 17 17; O S ">" 17 18; I S "Result" 17 20; O S "<" 17 26; G S Parenth [] 17 27; O S "," 17 29; G S Parenth [] 17 31; O S ">" 17 33]) (S 17 35) [(SExpr (ETry [] (ECall [] (EPath [] (mk_path false [mk_seg "hoge" [] (S 18 13)])) (S 18 17) [] []) (S 18 19)) (Some (S 18 20))); (SExpr (ECall [] (EPath [] (mk_path false [mk_seg "Err" [] (S 19 13)])) (S 19 16) [(ETuple [] (S 19 17) [] [])] []) None)])); (SExpr (ELit [] (LOther "10") (S 21 9)) None)]) [O S ";" 22 6])); (SExpr (ECall [] (EPath [] (mk_path false [mk_seg "Err" [] (S 24 5)])) (S 24 8) [(ETuple [] (S 24 9) [] [])] []) None)]).
Definition args_walker_expr_const_1 : list meta := let S := at_ "<hooq_root>/tests/walker/expr/const.rs" in [].
Definition rec_walker_expr_const_1 : list string :=
  ["fn func ( ) - > Result < ( ) , ( ) > { const _N : usize = const { fn _f ( ) - > Result < ( ) , ( ) > { hoge ( ) . inspect ( | _ | { { : : std : : io :";
   ": _print ( format_args ! ( ""tag:\s{0}\n"" , ""in\sconst\sblock"" ) ) ; } ; } ) ? ; Err ( ( ) ) . inspect ( | _ | { { : : std : : io : : _print (";
   "format_args ! ( ""tag:\s{0}\n"" , ""in\sconst\sblock"" ) ) ; } ; } ) } 10 } ; Err ( ( ) ) . inspect ( | _ | { { : : std : : io : : _print ( format_args !";
   "( ""tag:\s{0}\n"" , ""(no\stag)"" ) ) ; } ; } ) }"].
(** hoge *)
Example recorded_walker_expr_const_0 : expanded su_walker_expr_const args_walker_expr_const_0 it_walker_expr_const_0 = words rec_walker_expr_const_0.
Proof. vm_compute. reflexivity. Qed.
(** func *)
Example recorded_walker_expr_const_1 : expanded su_walker_expr_const args_walker_expr_const_1 it_walker_expr_const_1 = words rec_walker_expr_const_1.
Proof. vm_compute. reflexivity. Qed.
(** ** hooq-macros/tests/walker/expr/field.rs *)
Definition doc_walker_expr_field : list (string * ftable) := [].
Definition texts_walker_expr_field : list (string * list tt) := let S := at_ "" in [].
Definition strs_walker_expr_field : list (string * string) :=
  [("( no tag )", "(no tag)");
   ("tag : { 0 }", "tag: {0}
")].
Definition ends_walker_expr_field : list (N * N * (N * N * string)) :=
  [(3, 13, (5, 2, "")); (7, 2, (7, 8, "")); (8, 8, (8, 10, "")); (8, 27, (8, 29, "")); (8, 31, (10, 2, "")); (9, 7, (9, 27, "")); (9, 13, (9, 26, "")); (12, 2, (12, 8, "")); (13, 2, (15, 5, "")); (13, 15, (15, 4, "")); (13, 24, (15, 3, "")); (13, 29, (15, 2, "")); (14, 13, (14, 30, "")); (14, 14, (14, 23, """tag: {}""")); (16, 2, (16, 26, "")); (16, 15, (16, 25, """(no tag)""")); (17, 8, (17, 10, "")); (17, 21, (17, 23, "")); (17, 25, (17, 27, "")); (17, 29, (28, 2, "")); (18, 17, (18, 19, "")); (20, 14, (20, 35, "")); (20, 27, (20, 34, """outer""")); (21, 5, (24, 6, "")); (22, 10, (22, 31, "")); (22, 23, (22, 30, """inner""")); (23, 13, (23, 15, "")); (27, 8, (27, 12, "")); (27, 9, (27, 11, "")); (30, 2, (30, 8, "")); (31, 8, (31, 10, "")); (31, 11, (33, 2, "")); (32, 9, (32, 11, "")); (32, 22, (32, 24, ""))].
Definition su_walker_expr_field : setup := mk_setup (mk_features false false true false false "hooq") doc_walker_expr_field texts_walker_expr_field strs_walker_expr_field [] ends_walker_expr_field "field".
Definition it_walker_expr_field_0 : item := let S := at_ "hooq-macros/tests/walker/expr/field.rs" in
  (IFn [] [] (mk_sig "hoge" (RetPath (mk_path false [mk_seg "Result" [O S "<" 8 20; I S "Hoge" 8 21; O S "," 8 25; G S Parenth [] 8 27; O S ">" 8 29] (S 8 14)])) [I S "fn" 8 1; I S "hoge" 8 4; G S Parenth [] 8 8; O S "-" 8 11; O S ">" 8 12; I S "Result" 8 14; O S "<" 8 20; I S "Hoge" 8 21; O S "," 8 25; G S Parenth [] 8 27; O S ">" 8 29]) (S 8 31) [(SExpr (ECall [] (EPath [] (mk_path false [mk_seg "Ok" [] (S 9 5)])) (S 9 7) [(EStruct [] (mk_path false [mk_seg "Hoge" [] (S 9 8)]) (S 9 13) [(FieldV [] [I S "field" 9 15] [O S ":" 9 20] (ELit [] (LOther "10") (S 9 22)))] [] [] None)] []) None)]).
Definition args_walker_expr_field_0 : list meta := let S := at_ "hooq-macros/tests/walker/expr/field.rs" in [].
Definition rec_walker_expr_field_0 : list string :=
  ["fn hoge ( ) - > Result < Hoge , ( ) > { Ok ( Hoge { field : 10 } ) }"].
Definition it_walker_expr_field_1 : item := let S := at_ "hooq-macros/tests/walker/expr/field.rs" in
  (IFn [mk_attr false (S 13 1) (MList (mk_path false [mk_seg "hooq" [] (S 13 3); mk_seg "method" [] (S 13 9)]) Parenth [O S "." 13 16; I S "inspect" 13 17; G S Parenth [O S "|" 13 25; I S "_" 13 26; O S "|" 13 27; G S Brace [I S "println" 14 5; O S "!" 14 12; G S Parenth [L S (LStr "tag: {}") 14 14; O S "," 14 23; O S "$" 14 25; I S "tag" 14 26] 14 13; O S ";" 14 30] 13 29] 13 24] (S 13 15)); mk_attr false (S 16 1) (MNameValue (mk_path false [mk_seg "hooq" [] (S 16 3); mk_seg "tag" [] (S 16 9)]) (VStr "(no tag)" (S 16 15)))] [] (mk_sig "func" (RetPath (mk_path false [mk_seg "Result" [O S "<" 17 20; G S Parenth [] 17 21; O S "," 17 23; G S Parenth [] 17 25; O S ">" 17 27] (S 17 14)])) [I S "fn" 17 1; I S "func" 17 4; G S Parenth [] 17 8; O S "-" 17 11; O S ">" 17 12; I S "Result" 17 14; O S "<" 17 20; G S Parenth [] 17 21; O S "," 17 23; G S Parenth [] 17 25; O S ">" 17 27]) (S 17 29) [(SLocalInit [] [I S "let" 18 5; I S "_" 18 9; O S "=" 18 11] (EField [] (ETry [] (ECall [] (EPath [] (mk_path false [mk_seg "hoge" [] (S 18 13)])) (S 18 17) [] []) (S 18 19)) [O S "." 18 20; I S "field" 18 21]) [] None [O S ";" 18 26]); (SLocalInit [] [I S "let" 20 5; I S "_" 20 9; O S "=" 20 11] (EField [mk_attr false (S 20 13) (MNameValue (mk_path false [mk_seg "hooq" [] (S 20 15); mk_seg "tag" [] (S 20 21)]) (VStr "outer" (S 20 27)))] (EBlock [] [] (S 21 5) [(SExpr (ETry [mk_attr false (S 22 9) (MNameValue (mk_path false [mk_seg "hooq" [] (S 22 11); mk_seg "tag" [] (S 22 17)]) (VStr "inner" (S 22 23)))] (ECall [] (EPath [] (mk_path false [mk_seg "hoge" [] (S 23 9)])) (S 23 13) [] []) (S 23 15)) None)]) [O S "." 25 5; I S "field" 25 6]) [] None [O S ";" 25 11]); (SExpr (ECall [] (EPath [] (mk_path false [mk_seg "Err" [] (S 27 5)])) (S 27 8) [(ETuple [] (S 27 9) [] [])] []) None)]).
Definition args_walker_expr_field_1 : list meta := let S := at_ "hooq-macros/tests/walker/expr/field.rs" in [].
Definition rec_walker_expr_field_1 : list string :=
  ["fn func ( ) - > Result < ( ) , ( ) > { let _ = hoge ( ) . inspect ( | _ | { { : : std : : io : : _print ( format_args ! ( ""tag:\s{0}\n"" , ""(no\stag)""";
   ") ) ; } ; } ) ? . field ; let _ = { hoge ( ) . inspect ( | _ | { { : : std : : io : : _print ( format_args ! ( ""tag:\s{0}\n"" , ""inner"" ) ) ; } ; } ) ?";
   "} . field ; Err ( ( ) ) . inspect ( | _ | { { : : std : : io : : _print ( format_args ! ( ""tag:\s{0}\n"" , ""(no\stag)"" ) ) ; } ; } ) }"].
(** hoge *)
Example recorded_walker_expr_field_0 : expanded su_walker_expr_field args_walker_expr_field_0 it_walker_expr_field_0 = words rec_walker_expr_field_0.
Proof. vm_compute. reflexivity. Qed.
(** func *)
Example recorded_walker_expr_field_1 : expanded su_walker_expr_field args_walker_expr_field_1 it_walker_expr_field_1 = words rec_walker_expr_field_1.
Proof. vm_compute. reflexivity. Qed.
(** ** hooq-macros/tests/walker/expr/for_loop.rs *)
Definition doc_walker_expr_for_loop : list (string * ftable) := [].
Definition texts_walker_expr_for_loop : list (string * list tt) := let S := at_ "" in [].
Definition strs_walker_expr_for_loop : list (string * string) :=
  [("( no tag )", "(no tag)");
   ("12 > Err ( ( ) ) |", "  12>    Err(())
    |");
   ("< hooq_root > / tests / walker / expr / for_loop . rs", "<hooq_root>/tests/walker/expr/for_loop.rs");
   ("[ { 0 } : { 1 } : { 2 } ] { 3 : ? } { 4 }", "[{0}:{1}:{2}] {3:?}
{4}
");
   ("tag : { 0 }", "tag: {0}
");
   ("{ 0 } end", "{0} end
");
   ("{ 0 } start", "{0} start
")].
Definition ends_walker_expr_for_loop : list (N * N * (N * N * string)) :=
  [(5, 2, (5, 8, "")); (6, 9, (6, 21, "")); (6, 55, (6, 57, "")); (6, 59, (8, 2, "")); (7, 7, (7, 16, "")); (10, 2, (10, 8, "")); (11, 8, (11, 10, "")); (11, 21, (11, 23, "")); (11, 25, (11, 27, "")); (11, 29, (13, 2, "")); (12, 8, (12, 12, "")); (12, 9, (12, 11, "")); (15, 2, (15, 8, "")); (16, 2, (18, 5, "")); (16, 15, (18, 4, "")); (16, 24, (18, 3, "")); (16, 29, (18, 2, "")); (17, 13, (17, 30, "")); (17, 14, (17, 23, """tag: {}""")); (19, 2, (19, 26, "")); (19, 15, (19, 25, """(no tag)""")); (20, 8, (20, 10, "")); (20, 21, (20, 23, "")); (20, 25, (20, 27, "")); (20, 29, (38, 2, "")); (21, 19, (21, 23, "")); (21, 25, (35, 6, "")); (22, 17, (22, 30, "")); (22, 18, (22, 29, """{i} start""")); (24, 20, (26, 10, "")); (25, 24, (25, 26, "")); (28, 19, (32, 10, "")); (29, 17, (29, 19, "")); (31, 23, (31, 27, "")); (31, 24, (31, 26, "")); (34, 17, (34, 28, "")); (34, 18, (34, 27, """{i} end""")); (37, 8, (37, 12, "")); (37, 9, (37, 11, "")); (40, 2, (40, 8, "")); (41, 8, (41, 10, "")); (41, 11, (43, 2, "")); (42, 9, (42, 11, "")); (42, 22, (42, 24, ""))].
Definition su_walker_expr_for_loop : setup := mk_setup (mk_features false false true false false "hooq") doc_walker_expr_for_loop texts_walker_expr_for_loop strs_walker_expr_for_loop [] ends_walker_expr_for_loop "for_loop".
Definition it_walker_expr_for_loop_0 : item := let S := at_ "<hooq_root>/tests/walker/expr/for_loop.rs" in
  (IFn [] [] (mk_sig "range" (RetPath (mk_path false [mk_seg "Result" [O S "<" 6 31; I S "RangeInclusive" 6 32; O S "<" 6 46; I S "usize" 6 47; O S ">" 6 52; O S "," 6 53; G S Parenth [] 6 55; O S ">" 6 57] (S 6 25)])) [I S "fn" 6 1; I S "range" 6 4; G S Parenth [I S "end" 6 10; O S ":" 6 13; I S "usize" 6 15] 6 9; O S "-" 6 22; O S ">" 6 23; I S "Result" 6 25; O S "<" 6 31; I S "RangeInclusive" 6 32; O S "<" 6 46; I S "usize" 6 47; O S ">" 6 52; O S "," 6 53; G S Parenth [] 6 55; O S ">" 6 57]) (S 6 59) [(SExpr (ECall [] (EPath [] (mk_path false [mk_seg "Ok" [] (S 7 5)])) (S 7 7) [(ERange [] (Some (ELit [] (LOther "0") (S 7 8))) [O S "." 7 9; O S "." 7 10; O S "=" 7 11] (Some (EPath [] (mk_path false [mk_seg "end" [] (S 7 12)]))))] []) None)]).
Definition args_walker_expr_for_loop_0 : list meta := let S := at_ "<hooq_root>/tests/walker/expr/for_loop.rs" in [].
Definition rec_walker_expr_for_loop_0 : list string :=
  ["fn range ( end : usize ) - > Result < RangeInclusive < usize > , ( ) > { Ok ( 0 . . = end ) }"].
Definition it_walker_expr_for_loop_1 : item := let S := at_ "<hooq_root>/tests/walker/expr/for_loop.rs" in
  (IFn [] [] (mk_sig "hoge" (RetPath (mk_path false [mk_seg "Result" [O S "<" 11 20; G S Parenth [] 11 21; O S "," 11 23; G S Parenth [] 11 25; O S ">" 11 27] (S 11 14)])) [I S "fn" 11 1; I S "hoge" 11 4; G S Parenth [] 11 8; O S "-" 11 11; O S ">" 11 12; I S "Result" 11 14; O S "<" 11 20; G S Parenth [] 11 21; O S "," 11 23; G S Parenth [] 11 25; O S ">" 11 27]) (S 11 29) [(SExpr (ECall [] (EPath [] (mk_path false [mk_seg "Err" [] (S 12 5)])) (S 12 8) [(ETuple [] (S 12 9) [] [])] []) None)]).
Definition args_walker_expr_for_loop_1 : list meta := let S := at_ "<hooq_root>/tests/walker/expr/for_loop.rs" in [].
Definition rec_walker_expr_for_loop_1 : list string :=
  ["fn hoge ( ) - > Result < ( ) , ( ) > { Err ( ( ) ) . inspect_err ( | e | { let path = ""<hooq_root>/tests/walker/expr/for_loop.rs"" ; let line = 12usize";
   "; let col = 5usize ; let expr = ""\s\s12>\s\s\s\sErr(())\n\s\s\s\s|"" ; { : : std : : io : : _eprint ( format_args ! ( ""[{0}:{1}:{2}]\s{3:?}\n{4}\n"" ,";
   "path , line , col , e , expr ) ) ; } ; } ) }"].
Definition it_walker_expr_for_loop_2 : item := let S := at_ "<hooq_root>/tests/walker/expr/for_loop.rs" in
  (IFn [mk_attr false (S 16 1) (MList (mk_path false [mk_seg "hooq" [] (S 16 3); mk_seg "method" [] (S 16 9)]) Parenth [O S "." 16 16; I S "inspect" 16 17; G S Parenth [O S "|" 16 25; I S "_" 16 26; O S "|" 16 27; G S Brace [I S "println" 17 5; O S "!" 17 12; G S Parenth [L S (LStr "tag: {}") 17 14; O S "," 17 23; O S "$" 17 25; I S "tag" 17 26] 17 13; O S ";" 17 30] 16 29] 16 24] (S 16 15)); mk_attr false (S 19 1) (MNameValue (mk_path false [mk_seg "hooq" [] (S 19 3); mk_seg "tag" [] (S 19 9)]) (VStr "(no tag)" (S 19 15)))] [] (mk_sig "func" (RetPath (mk_path false [mk_seg "Result" [O S "<" 20 20; G S Parenth [] 20 21; O S "," 20 23; G S Parenth [] 20 25; O S ">" 20 27] (S 20 14)])) [I S "fn" 20 1; I S "func" 20 4; G S Parenth [] 20 8; O S "-" 20 11; O S ">" 20 12; I S "Result" 20 14; O S "<" 20 20; G S Parenth [] 20 21; O S "," 20 23; G S Parenth [] 20 25; O S ">" 20 27]) (S 20 29) [(SExpr (EForLoop [] [I S "for" 21 5; I S "i" 21 9; I S "in" 21 11] (ETry [] (ECall [] (EPath [] (mk_path false [mk_seg "range" [] (S 21 14)])) (S 21 19) [(ELit [] (LOther "10") (S 21 20))] []) (S 21 23)) (S 21 25) [(SMacro [] (Mac (mk_path false [mk_seg "println" [] (S 22 9)]) Parenth (S 22 17) [L S (LStr "{i} start") 22 18] (Some [VExpr (ELit [] (LStr "{i} start") (S 22 18)) []])) [O S ";" 22 30]); (SExpr (EIf [] [I S "if" 24 9] (EBinary [] (EPath [] (mk_path false [mk_seg "i" [] (S 24 12)])) [O S ">" 24 14] (ELit [] (LOther "100") (S 24 16))) (S 24 20) [(SExpr (EReturn [] (S 25 13) (Some (ECall [] (EPath [] (mk_path false [mk_seg "hoge" [] (S 25 20)])) (S 25 24) [] []))) (Some (S 25 26)))] [] None) None); (SExpr (EIf [] [I S "if" 28 9] (EBinary [] (EPath [] (mk_path false [mk_seg "i" [] (S 28 12)])) [O S ">" 28 14] (ELit [] (LOther "50") (S 28 16))) (S 28 19) [(SExpr (ETry [] (ECall [] (EPath [] (mk_path false [mk_seg "hoge" [] (S 29 13)])) (S 29 17) [] []) (S 29 19)) (Some (S 29 20))); (SExpr (EReturn [] (S 31 13) (Some (ECall [] (EPath [] (mk_path false [mk_seg "Err" [] (S 31 20)])) (S 31 23) [(ETuple [] (S 31 24) [] [])] []))) (Some (S 31 27)))] [] None) None); (SMacro [] (Mac (mk_path false [mk_seg "println" [] (S 34 9)]) Parenth (S 34 17) [L S (LStr "{i} end") 34 18] (Some [VExpr (ELit [] (LStr "{i} end") (S 34 18)) []])) [O S ";" 34 28])]) None); (SExpr (ECall [] (EPath [] (mk_path false [mk_seg "Err" [] (S 37 5)])) (S 37 8) [(ETuple [] (S 37 9) [] [])] []) None)]).
Definition args_walker_expr_for_loop_2 : list meta := let S := at_ "<hooq_root>/tests/walker/expr/for_loop.rs" in [].
Definition rec_walker_expr_for_loop_2 : list string :=
  ["fn func ( ) - > Result < ( ) , ( ) > { for i in range ( 10 ) . inspect ( | _ | { { : : std : : io : : _print ( format_args ! ( ""tag:\s{0}\n"" ,";
   """(no\stag)"" ) ) ; } ; } ) ? { { : : std : : io : : _print ( format_args ! ( ""{0}\sstart\n"" , i ) ) ; } ; if i > 100 { return hoge ( ) . inspect ( | _";
   "| { { : : std : : io : : _print ( format_args ! ( ""tag:\s{0}\n"" , ""(no\stag)"" ) ) ; } ; } ) ; } if i > 50 { hoge ( ) . inspect ( | _ | { { : : std : :";
   "io : : _print ( format_args ! ( ""tag:\s{0}\n"" , ""(no\stag)"" ) ) ; } ; } ) ? ; return Err ( ( ) ) . inspect ( | _ | { { : : std : : io : : _print (";
   "format_args ! ( ""tag:\s{0}\n"" , ""(no\stag)"" ) ) ; } ; } ) ; } { : : std : : io : : _print ( format_args ! ( ""{0}\send\n"" , i ) ) ; } ; } Err ( ( ) ) .";
   "inspect ( | _ | { { : : std : : io : : _print ( format_args ! ( ""tag:\s{0}\n"" , ""(no\stag)"" ) ) ; } ; } ) }"].
(** range *)
Example recorded_walker_expr_for_loop_0 : expanded su_walker_expr_for_loop args_walker_expr_for_loop_0 it_walker_expr_for_loop_0 = words rec_walker_expr_for_loop_0.
Proof. vm_compute. reflexivity. Qed.
(** hoge *)
Example recorded_walker_expr_for_loop_1 : expanded su_walker_expr_for_loop args_walker_expr_for_loop_1 it_walker_expr_for_loop_1 = words rec_walker_expr_for_loop_1.
Proof. vm_compute. reflexivity. Qed.
(** func *)
Example recorded_walker_expr_for_loop_2 : expanded su_walker_expr_for_loop args_walker_expr_for_loop_2 it_walker_expr_for_loop_2 = words rec_walker_expr_for_loop_2.
Proof. vm_compute. reflexivity. Qed.
(** ** hooq-macros/tests/walker/expr/group.rs *)
Definition doc_walker_expr_group : list (string * ftable) := [].
Definition texts_walker_expr_group : list (string * list tt) := let S := at_ "" in [].
Definition strs_walker_expr_group : list (string * string) :=
  [("( no tag )", "(no tag)");
   ("tag : { 0 }", "tag: {0}
")].
Definition ends_walker_expr_group : list (N * N * (N * N * string)) :=
  [(7, 2, (7, 8, "")); (8, 8, (8, 10, "")); (8, 26, (8, 28, "")); (8, 30, (10, 2, "")); (9, 7, (9, 11, "")); (12, 2, (12, 8, "")); (13, 2, (15, 5, "")); (13, 15, (15, 4, "")); (13, 24, (15, 3, "")); (13, 29, (15, 2, "")); (14, 13, (14, 30, "")); (14, 14, (14, 23, """tag: {}""")); (16, 2, (16, 26, "")); (16, 15, (16, 25, """(no tag)""")); (17, 2, (17, 39, "")); (17, 25, (17, 38, "")); (17, 26, (17, 30, """Ok""")); (17, 32, (17, 37, """Err""")); (18, 8, (18, 20, "")); (18, 31, (18, 33, "")); (18, 35, (18, 37, "")); (18, 39, (39, 2, "")); (19, 13, (35, 20, "")); (20, 11, (35, 19, "")); (20, 20, (20, 22, "")); (20, 26, (20, 35, "")); (20, 31, (20, 33, "")); (20, 42, (34, 10, "")); (21, 22, (23, 14, "")); (22, 27, (22, 31, "")); (22, 28, (22, 30, "")); (25, 27, (25, 29, "")); (25, 34, (33, 15, "")); (25, 35, (33, 14, "")); (26, 31, (26, 33, "")); (28, 26, (30, 18, "")); (29, 32, (29, 34, "")); (29, 38, (29, 46, "")); (29, 43, (29, 45, "")); (32, 21, (32, 23, "")); (35, 16, (35, 18, "")); (38, 8, (38, 12, "")); (38, 9, (38, 11, "")); (41, 2, (41, 8, "")); (42, 8, (42, 10, "")); (42, 11, (44, 2, "")); (43, 9, (43, 15, "")); (43, 26, (43, 28, ""))].
Definition su_walker_expr_group : setup := mk_setup (mk_features false false true false false "hooq") doc_walker_expr_group texts_walker_expr_group strs_walker_expr_group [] ends_walker_expr_group "group".
Definition it_walker_expr_group_0 : item := let S := at_ "hooq-macros/tests/walker/expr/group.rs" in
  (IFn [] [] (mk_sig "hoge" (RetPath (mk_path false [mk_seg "Result" [O S "<" 8 20; I S "u32" 8 21; O S "," 8 24; G S Parenth [] 8 26; O S ">" 8 28] (S 8 14)])) [I S "fn" 8 1; I S "hoge" 8 4; G S Parenth [] 8 8; O S "-" 8 11; O S ">" 8 12; I S "Result" 8 14; O S "<" 8 20; I S "u32" 8 21; O S "," 8 24; G S Parenth [] 8 26; O S ">" 8 28]) (S 8 30) [(SExpr (ECall [] (EPath [] (mk_path false [mk_seg "Ok" [] (S 9 5)])) (S 9 7) [(ELit [] (LOther "10") (S 9 8))] []) None)]).
Definition args_walker_expr_group_0 : list meta := let S := at_ "hooq-macros/tests/walker/expr/group.rs" in [].
Definition rec_walker_expr_group_0 : list string :=
  ["fn hoge ( ) - > Result < u32 , ( ) > { Ok ( 10 ) }"].
Definition it_walker_expr_group_1 : item := let S := at_ "hooq-macros/tests/walker/expr/group.rs" in
  (IFn [mk_attr false (S 13 1) (MList (mk_path false [mk_seg "hooq" [] (S 13 3); mk_seg "method" [] (S 13 9)]) Parenth [O S "." 13 16; I S "inspect" 13 17; G S Parenth [O S "|" 13 25; I S "_" 13 26; O S "|" 13 27; G S Brace [I S "println" 14 5; O S "!" 14 12; G S Parenth [L S (LStr "tag: {}") 14 14; O S "," 14 23; O S "$" 14 25; I S "tag" 14 26] 14 13; O S ";" 14 30] 13 29] 13 24] (S 13 15)); mk_attr false (S 16 1) (MNameValue (mk_path false [mk_seg "hooq" [] (S 16 3); mk_seg "tag" [] (S 16 9)]) (VStr "(no tag)" (S 16 15))); mk_attr false (S 17 1) (MList (mk_path false [mk_seg "hooq" [] (S 17 3); mk_seg "tail_expr_idents" [] (S 17 9)]) Parenth [L S (LStr "Ok") 17 26; O S "," 17 30; L S (LStr "Err") 17 32] (S 17 25))] [] (mk_sig "func" (RetPath (mk_path false [mk_seg "Result" [O S "<" 18 30; G S Parenth [] 18 31; O S "," 18 33; G S Parenth [] 18 35; O S ">" 18 37] (S 18 24)])) [I S "fn" 18 1; I S "func" 18 4; G S Parenth [I S "flag" 18 9; O S ":" 18 13; I S "bool" 18 15] 18 8; O S "-" 18 21; O S ">" 18 22; I S "Result" 18 24; O S "<" 18 30; G S Parenth [] 18 31; O S "," 18 33; G S Parenth [] 18 35; O S ">" 18 37]) (S 18 39) [(SLocalInit [] [I S "let" 19 5; I S "_" 19 9; O S "=" 19 11] (EBinary [] (EParen [] (S 19 13) (EBinary [] (ELit [] (LOther "2") (S 19 14)) [O S "*" 20 9] (EParen [] (S 20 11) (EBinary [] (EBinary [] (EBinary [] (EBinary [] (ELit [] (LOther "3") (S 20 12)) [O S "*" 20 14] (ETry [] (ECall [] (EPath [] (mk_path false [mk_seg "hoge" [] (S 20 16)])) (S 20 20) [] []) (S 20 22))) [O S "*" 20 24] (EParen [] (S 20 26) (ETry [] (ECall [] (EPath [] (mk_path false [mk_seg "hoge" [] (S 20 27)])) (S 20 31) [] []) (S 20 33)))) [O S "*" 20 36] (ELit [] (LOther "5") (S 20 38))) [O S "*" 20 40] (EMethodCall [] (EBlock [] [] (S 20 42) [(SExpr (EIf [] [I S "if" 21 13] (EUnary [] [O S "!" 21 16] (EPath [] (mk_path false [mk_seg "flag" [] (S 21 17)]))) (S 21 22) [(SExpr (EReturn [] (S 22 17) (Some (ECall [] (EPath [] (mk_path false [mk_seg "Err" [] (S 22 24)])) (S 22 27) [(ETuple [] (S 22 28) [] [])] []))) (Some (S 22 31)))] [] None) None); (SExpr (ECall [] (EPath [] (mk_path false [mk_seg "Result" [O S ":" 25 19; O S ":" 25 20; O S "<" 25 21; I S "u32" 25 22; O S "," 25 25; G S Parenth [] 25 27; O S ">" 25 29] (S 25 13); mk_seg "Ok" [] (S 25 32)])) (S 25 34) [(EBlock [] [] (S 25 35) [(SLocalInit [] [I S "let" 26 17; I S "tmp" 26 21; O S "=" 26 25] (ETry [] (ECall [] (EPath [] (mk_path false [mk_seg "hoge" [] (S 26 27)])) (S 26 31) [] []) (S 26 33)) [] None [O S ";" 26 34]); (SExpr (EIf [] [I S "if" 28 17] (EUnary [] [O S "!" 28 20] (EPath [] (mk_path false [mk_seg "flag" [] (S 28 21)]))) (S 28 26) [(SExpr (EReturn [] (S 29 21) (Some (EMethodCall [] (ECall [] (EPath [] (mk_path false [mk_seg "hoge" [] (S 29 28)])) (S 29 32) [] []) [O S "." 29 34; I S "map" 29 35] (S 29 38) [(EClosure [] [O S "|" 29 39; I S "_" 29 40; O S "|" 29 41] RetNone (ETuple [] (S 29 43) [] []))] []))) (Some (S 29 46)))] [] None) None); (SExpr (EBinary [] (ETry [] (ECall [] (EPath [] (mk_path false [mk_seg "hoge" [] (S 32 17)])) (S 32 21) [] []) (S 32 23)) [O S "+" 32 25] (EPath [] (mk_path false [mk_seg "tmp" [] (S 32 27)]))) None)])] []) None)]) [O S "." 35 9; I S "unwrap" 35 10] (S 35 16) [] []))))) [O S "*" 36 9] (ELit [] (LOther "6") (S 36 11))) [] None [O S ";" 36 12]); (SExpr (ECall [] (EPath [] (mk_path false [mk_seg "Err" [] (S 38 5)])) (S 38 8) [(ETuple [] (S 38 9) [] [])] []) None)]).
Definition args_walker_expr_group_1 : list meta := let S := at_ "hooq-macros/tests/walker/expr/group.rs" in [].
Definition rec_walker_expr_group_1 : list string :=
  ["fn func ( flag : bool ) - > Result < ( ) , ( ) > { let _ = ( 2 * ( 3 * hoge ( ) . inspect ( | _ | { { : : std : : io : : _print ( format_args ! (";
   """tag:\s{0}\n"" , ""(no\stag)"" ) ) ; } ; } ) ? * ( hoge ( ) . inspect ( | _ | { { : : std : : io : : _print ( format_args ! ( ""tag:\s{0}\n"" , ""(no\stag)""";
   ") ) ; } ; } ) ? ) * 5 * { if ! flag { return Err ( ( ) ) . inspect ( | _ | { { : : std : : io : : _print ( format_args ! ( ""tag:\s{0}\n"" , ""(no\stag)""";
   ") ) ; } ; } ) ; } Result : : < u32 , ( ) > : : Ok ( { let tmp = hoge ( ) . inspect ( | _ | { { : : std : : io : : _print ( format_args ! (";
   """tag:\s{0}\n"" , ""(no\stag)"" ) ) ; } ; } ) ? ; if ! flag { return hoge ( ) . map ( | _ | ( ) ) . inspect ( | _ | { { : : std : : io : : _print (";
   "format_args ! ( ""tag:\s{0}\n"" , ""(no\stag)"" ) ) ; } ; } ) ; } hoge ( ) . inspect ( | _ | { { : : std : : io : : _print ( format_args ! ( ""tag:\s{0}\n""";
   ", ""(no\stag)"" ) ) ; } ; } ) ? + tmp } ) . inspect ( | _ | { { : : std : : io : : _print ( format_args ! ( ""tag:\s{0}\n"" , ""(no\stag)"" ) ) ; } ; } ) }";
   ". unwrap ( ) ) ) * 6 ; Err ( ( ) ) . inspect ( | _ | { { : : std : : io : : _print ( format_args ! ( ""tag:\s{0}\n"" , ""(no\stag)"" ) ) ; } ; } ) }"].
(** hoge *)
Example recorded_walker_expr_group_0 : expanded su_walker_expr_group args_walker_expr_group_0 it_walker_expr_group_0 = words rec_walker_expr_group_0.
Proof. vm_compute. reflexivity. Qed.
(** func *)
Example recorded_walker_expr_group_1 : expanded su_walker_expr_group args_walker_expr_group_1 it_walker_expr_group_1 = words rec_walker_expr_group_1.
Proof. vm_compute. reflexivity. Qed.
(** ** hooq-macros/tests/walker/expr/if.rs *)
Definition doc_walker_expr_if : list (string * ftable) := [].
Definition texts_walker_expr_if : list (string * list tt) := let S := at_ "" in [].
Definition strs_walker_expr_if : list (string * string) :=
  [("( no tag )", "(no tag)");
   ("tag : { 0 }", "tag: {0}
")].
Definition ends_walker_expr_if : list (N * N * (N * N * string)) :=
  [(3, 2, (3, 8, "")); (4, 8, (4, 10, "")); (4, 27, (4, 29, "")); (4, 31, (6, 2, "")); (5, 7, (5, 13, "")); (8, 2, (8, 8, "")); (9, 2, (11, 5, "")); (9, 15, (11, 4, "")); (9, 24, (11, 3, "")); (9, 29, (11, 2, "")); (10, 13, (10, 30, "")); (10, 14, (10, 23, """tag: {}""")); (12, 2, (12, 26, "")); (12, 15, (12, 25, """(no tag)""")); (13, 2, (13, 39, "")); (13, 25, (13, 38, "")); (13, 26, (13, 30, """Ok""")); (13, 32, (13, 37, """Err""")); (14, 8, (14, 20, "")); (14, 31, (14, 33, "")); (14, 35, (14, 37, "")); (14, 39, (36, 2, "")); (15, 12, (15, 14, "")); (15, 16, (27, 6, "")); (16, 21, (16, 23, "")); (18, 17, (20, 10, "")); (19, 23, (19, 27, "")); (19, 24, (19, 26, "")); (22, 18, (24, 10, "")); (23, 24, (23, 26, "")); (23, 30, (23, 38, "")); (23, 35, (23, 37, "")); (26, 12, (26, 16, "")); (26, 13, (26, 15, "")); (27, 19, (27, 21, "")); (27, 23, (31, 6, "")); (28, 21, (28, 23, "")); (30, 12, (30, 16, "")); (30, 13, (30, 15, "")); (31, 12, (35, 6, "")); (32, 21, (32, 23, "")); (34, 12, (34, 16, "")); (34, 13, (34, 15, "")); (38, 2, (38, 8, "")); (39, 8, (39, 10, "")); (39, 11, (41, 2, "")); (40, 9, (40, 15, "")); (40, 26, (40, 28, ""))].
Definition su_walker_expr_if : setup := mk_setup (mk_features false false true false false "hooq") doc_walker_expr_if texts_walker_expr_if strs_walker_expr_if [] ends_walker_expr_if "if".
Definition it_walker_expr_if_0 : item := let S := at_ "hooq-macros/tests/walker/expr/if.rs" in
  (IFn [] [] (mk_sig "hoge" (RetPath (mk_path false [mk_seg "Result" [O S "<" 4 20; I S "bool" 4 21; O S "," 4 25; G S Parenth [] 4 27; O S ">" 4 29] (S 4 14)])) [I S "fn" 4 1; I S "hoge" 4 4; G S Parenth [] 4 8; O S "-" 4 11; O S ">" 4 12; I S "Result" 4 14; O S "<" 4 20; I S "bool" 4 21; O S "," 4 25; G S Parenth [] 4 27; O S ">" 4 29]) (S 4 31) [(SExpr (ECall [] (EPath [] (mk_path false [mk_seg "Ok" [] (S 5 5)])) (S 5 7) [(EPath [] (mk_path false [mk_seg "true" [] (S 5 8)]))] []) None)]).
Definition args_walker_expr_if_0 : list meta := let S := at_ "hooq-macros/tests/walker/expr/if.rs" in [].
Definition rec_walker_expr_if_0 : list string :=
  ["fn hoge ( ) - > Result < bool , ( ) > { Ok ( true ) }"].
Definition it_walker_expr_if_1 : item := let S := at_ "hooq-macros/tests/walker/expr/if.rs" in
  (IFn [mk_attr false (S 9 1) (MList (mk_path false [mk_seg "hooq" [] (S 9 3); mk_seg "method" [] (S 9 9)]) Parenth [O S "." 9 16; I S "inspect" 9 17; G S Parenth [O S "|" 9 25; I S "_" 9 26; O S "|" 9 27; G S Brace [I S "println" 10 5; O S "!" 10 12; G S Parenth [L S (LStr "tag: {}") 10 14; O S "," 10 23; O S "$" 10 25; I S "tag" 10 26] 10 13; O S ";" 10 30] 9 29] 9 24] (S 9 15)); mk_attr false (S 12 1) (MNameValue (mk_path false [mk_seg "hooq" [] (S 12 3); mk_seg "tag" [] (S 12 9)]) (VStr "(no tag)" (S 12 15))); mk_attr false (S 13 1) (MList (mk_path false [mk_seg "hooq" [] (S 13 3); mk_seg "tail_expr_idents" [] (S 13 9)]) Parenth [L S (LStr "Ok") 13 26; O S "," 13 30; L S (LStr "Err") 13 32] (S 13 25))] [] (mk_sig "func" (RetPath (mk_path false [mk_seg "Result" [O S "<" 14 30; G S Parenth [] 14 31; O S "," 14 33; G S Parenth [] 14 35; O S ">" 14 37] (S 14 24)])) [I S "fn" 14 1; I S "func" 14 4; G S Parenth [I S "flag" 14 9; O S ":" 14 13; I S "bool" 14 15] 14 8; O S "-" 14 21; O S ">" 14 22; I S "Result" 14 24; O S "<" 14 30; G S Parenth [] 14 31; O S "," 14 33; G S Parenth [] 14 35; O S ">" 14 37]) (S 14 39) [(SExpr (EIf [] [I S "if" 15 5] (ETry [] (ECall [] (EPath [] (mk_path false [mk_seg "hoge" [] (S 15 8)])) (S 15 12) [] []) (S 15 14)) (S 15 16) [(SLocalInit [] [I S "let" 16 9; I S "_" 16 13; O S "=" 16 15] (ETry [] (ECall [] (EPath [] (mk_path false [mk_seg "hoge" [] (S 16 17)])) (S 16 21) [] []) (S 16 23)) [] None [O S ";" 16 24]); (SExpr (EIf [] [I S "if" 18 9] (EPath [] (mk_path false [mk_seg "flag" [] (S 18 12)])) (S 18 17) [(SExpr (EReturn [] (S 19 13) (Some (ECall [] (EPath [] (mk_path false [mk_seg "Err" [] (S 19 20)])) (S 19 23) [(ETuple [] (S 19 24) [] [])] []))) (Some (S 19 27)))] [] None) None); (SExpr (EIf [] [I S "if" 22 9] (EPath [] (mk_path false [mk_seg "false" [] (S 22 12)])) (S 22 18) [(SExpr (EReturn [] (S 23 13) (Some (EMethodCall [] (ECall [] (EPath [] (mk_path false [mk_seg "hoge" [] (S 23 20)])) (S 23 24) [] []) [O S "." 23 26; I S "map" 23 27] (S 23 30) [(EClosure [] [O S "|" 23 31; I S "_" 23 32; O S "|" 23 33] RetNone (ETuple [] (S 23 35) [] []))] []))) (Some (S 23 38)))] [] None) None); (SExpr (ECall [] (EPath [] (mk_path false [mk_seg "Err" [] (S 26 9)])) (S 26 12) [(ETuple [] (S 26 13) [] [])] []) None)] [I S "else" 27 7] (Some (EIf [] [I S "if" 27 12] (ETry [] (ECall [] (EPath [] (mk_path false [mk_seg "hoge" [] (S 27 15)])) (S 27 19) [] []) (S 27 21)) (S 27 23) [(SLocalInit [] [I S "let" 28 9; I S "_" 28 13; O S "=" 28 15] (ETry [] (ECall [] (EPath [] (mk_path false [mk_seg "hoge" [] (S 28 17)])) (S 28 21) [] []) (S 28 23)) [] None [O S ";" 28 24]); (SExpr (ECall [] (EPath [] (mk_path false [mk_seg "Err" [] (S 30 9)])) (S 30 12) [(ETuple [] (S 30 13) [] [])] []) None)] [I S "else" 31 7] (Some (EBlock [] [] (S 31 12) [(SLocalInit [] [I S "let" 32 9; I S "_" 32 13; O S "=" 32 15] (ETry [] (ECall [] (EPath [] (mk_path false [mk_seg "hoge" [] (S 32 17)])) (S 32 21) [] []) (S 32 23)) [] None [O S ";" 32 24]); (SExpr (ECall [] (EPath [] (mk_path false [mk_seg "Err" [] (S 34 9)])) (S 34 12) [(ETuple [] (S 34 13) [] [])] []) None)]))))) None)]).
Definition args_walker_expr_if_1 : list meta := let S := at_ "hooq-macros/tests/walker/expr/if.rs" in [].
Definition rec_walker_expr_if_1 : list string :=
  ["fn func ( flag : bool ) - > Result < ( ) , ( ) > { if hoge ( ) . inspect ( | _ | { { : : std : : io : : _print ( format_args ! ( ""tag:\s{0}\n"" ,";
   """(no\stag)"" ) ) ; } ; } ) ? { let _ = hoge ( ) . inspect ( | _ | { { : : std : : io : : _print ( format_args ! ( ""tag:\s{0}\n"" , ""(no\stag)"" ) ) ; } ;";
   "} ) ? ; if flag { return Err ( ( ) ) . inspect ( | _ | { { : : std : : io : : _print ( format_args ! ( ""tag:\s{0}\n"" , ""(no\stag)"" ) ) ; } ; } ) ; }";
   "if false { return hoge ( ) . map ( | _ | ( ) ) . inspect ( | _ | { { : : std : : io : : _print ( format_args ! ( ""tag:\s{0}\n"" , ""(no\stag)"" ) ) ; } ;";
   "} ) ; } Err ( ( ) ) . inspect ( | _ | { { : : std : : io : : _print ( format_args ! ( ""tag:\s{0}\n"" , ""(no\stag)"" ) ) ; } ; } ) } else if hoge ( ) .";
   "inspect ( | _ | { { : : std : : io : : _print ( format_args ! ( ""tag:\s{0}\n"" , ""(no\stag)"" ) ) ; } ; } ) ? { let _ = hoge ( ) . inspect ( | _ | { { :";
   ": std : : io : : _print ( format_args ! ( ""tag:\s{0}\n"" , ""(no\stag)"" ) ) ; } ; } ) ? ; Err ( ( ) ) . inspect ( | _ | { { : : std : : io : : _print (";
   "format_args ! ( ""tag:\s{0}\n"" , ""(no\stag)"" ) ) ; } ; } ) } else { let _ = hoge ( ) . inspect ( | _ | { { : : std : : io : : _print ( format_args ! (";
   """tag:\s{0}\n"" , ""(no\stag)"" ) ) ; } ; } ) ? ; Err ( ( ) ) . inspect ( | _ | { { : : std : : io : : _print ( format_args ! ( ""tag:\s{0}\n"" ,";
   """(no\stag)"" ) ) ; } ; } ) } . inspect ( | _ | { { : : std : : io : : _print ( format_args ! ( ""tag:\s{0}\n"" , ""(no\stag)"" ) ) ; } ; } ) }"].
(** hoge *)
Example recorded_walker_expr_if_0 : expanded su_walker_expr_if args_walker_expr_if_0 it_walker_expr_if_0 = words rec_walker_expr_if_0.
Proof. vm_compute. reflexivity. Qed.
(** func *)
Example recorded_walker_expr_if_1 : expanded su_walker_expr_if args_walker_expr_if_1 it_walker_expr_if_1 = words rec_walker_expr_if_1.
Proof. vm_compute. reflexivity. Qed.
(** ** hooq-macros/tests/walker/expr/index.rs *)
Definition doc_walker_expr_index : list (string * ftable) := [].
Definition texts_walker_expr_index : list (string * list tt) := let S := at_ "" in [].
Definition strs_walker_expr_index : list (string * string) :=
  [("15 > hoge ( ) ? |", "  15>    hoge()?
    |");
   ("15 > v ( ) ? |", "  15>    v()?
    |");
   ("17 > Err ( ( ) ) |", "  17>    Err(())
    |");
   ("< hooq_root > / tests / walker / expr / index . rs", "<hooq_root>/tests/walker/expr/index.rs");
   ("[ { 0 } : { 1 } : { 2 } ] { 3 : ? } { 4 }", "[{0}:{1}:{2}] {3:?}
{4}
")].
Definition ends_walker_expr_index : list (N * N * (N * N * string)) :=
  [(3, 2, (3, 8, "")); (4, 5, (4, 7, "")); (4, 30, (4, 32, "")); (4, 34, (6, 2, "")); (5, 7, (5, 22, "")); (5, 12, (5, 21, "")); (8, 2, (8, 8, "")); (9, 8, (9, 10, "")); (9, 28, (9, 30, "")); (9, 32, (11, 2, "")); (10, 7, (10, 10, "")); (13, 2, (13, 8, "")); (14, 8, (14, 10, "")); (14, 21, (14, 23, "")); (14, 25, (14, 27, "")); (14, 29, (18, 2, "")); (15, 14, (15, 16, "")); (15, 17, (15, 26, "")); (15, 22, (15, 24, "")); (17, 8, (17, 12, "")); (17, 9, (17, 11, "")); (20, 2, (20, 8, "")); (21, 8, (21, 10, "")); (21, 11, (23, 2, "")); (22, 9, (22, 11, "")); (22, 22, (22, 24, ""))].
Definition su_walker_expr_index : setup := mk_setup (mk_features false false true false false "hooq") doc_walker_expr_index texts_walker_expr_index strs_walker_expr_index [] ends_walker_expr_index "index".
Definition it_walker_expr_index_0 : item := let S := at_ "<hooq_root>/tests/walker/expr/index.rs" in
  (IFn [] [] (mk_sig "v" (RetPath (mk_path false [mk_seg "Result" [O S "<" 4 17; I S "Vec" 4 18; O S "<" 4 21; I S "usize" 4 22; O S ">" 4 27; O S "," 4 28; G S Parenth [] 4 30; O S ">" 4 32] (S 4 11)])) [I S "fn" 4 1; I S "v" 4 4; G S Parenth [] 4 5; O S "-" 4 8; O S ">" 4 9; I S "Result" 4 11; O S "<" 4 17; I S "Vec" 4 18; O S "<" 4 21; I S "usize" 4 22; O S ">" 4 27; O S "," 4 28; G S Parenth [] 4 30; O S ">" 4 32]) (S 4 34) [(SExpr (ECall [] (EPath [] (mk_path false [mk_seg "Ok" [] (S 5 5)])) (S 5 7) [(EMacro [] (Mac (mk_path false [mk_seg "vec" [] (S 5 8)]) Bracket (S 5 12) [L S (LOther "1") 5 13; O S "," 5 14; L S (LOther "2") 5 16; O S "," 5 17; L S (LOther "3") 5 19] (Some [VExpr (ELit [] (LOther "1") (S 5 13)) [O S "," 5 14]; VExpr (ELit [] (LOther "2") (S 5 16)) [O S "," 5 17]; VExpr (ELit [] (LOther "3") (S 5 19)) []])))] []) None)]).
Definition args_walker_expr_index_0 : list meta := let S := at_ "<hooq_root>/tests/walker/expr/index.rs" in [].
Definition rec_walker_expr_index_0 : list string :=
  ["fn v ( ) - > Result < Vec < usize > , ( ) > { Ok ( < [ _ ] > : : into_vec ( : : alloc : : boxed : : box_new ( [ 1 , 2 , 3 ] ) ) ) }"].
Definition it_walker_expr_index_1 : item := let S := at_ "<hooq_root>/tests/walker/expr/index.rs" in
  (IFn [] [] (mk_sig "hoge" (RetPath (mk_path false [mk_seg "Result" [O S "<" 9 20; I S "usize" 9 21; O S "," 9 26; G S Parenth [] 9 28; O S ">" 9 30] (S 9 14)])) [I S "fn" 9 1; I S "hoge" 9 4; G S Parenth [] 9 8; O S "-" 9 11; O S ">" 9 12; I S "Result" 9 14; O S "<" 9 20; I S "usize" 9 21; O S "," 9 26; G S Parenth [] 9 28; O S ">" 9 30]) (S 9 32) [(SExpr (ECall [] (EPath [] (mk_path false [mk_seg "Ok" [] (S 10 5)])) (S 10 7) [(ELit [] (LOther "1") (S 10 8))] []) None)]).
Definition args_walker_expr_index_1 : list meta := let S := at_ "<hooq_root>/tests/walker/expr/index.rs" in [].
Definition rec_walker_expr_index_1 : list string :=
  ["fn hoge ( ) - > Result < usize , ( ) > { Ok ( 1 ) }"].
Definition it_walker_expr_index_2 : item := let S := at_ "<hooq_root>/tests/walker/expr/index.rs" in
  (IFn [] [] (mk_sig "func" (RetPath (mk_path false [mk_seg "Result" [O S "<" 14 20; G S Parenth [] 14 21; O S "," 14 23; G S Parenth [] 14 25; O S ">" 14 27] (S 14 14)])) [I S "fn" 14 1; I S "func" 14 4; G S Parenth [] 14 8; O S "-" 14 11; O S ">" 14 12; I S "Result" 14 14; O S "<" 14 20; G S Parenth [] 14 21; O S "," 14 23; G S Parenth [] 14 25; O S ">" 14 27]) (S 14 29) [(SLocalInit [] [I S "let" 15 5; I S "_" 15 9; O S "=" 15 11] (EIndex [] (ETry [] (ECall [] (EPath [] (mk_path false [mk_seg "v" [] (S 15 13)])) (S 15 14) [] []) (S 15 16)) (S 15 17) (ETry [] (ECall [] (EPath [] (mk_path false [mk_seg "hoge" [] (S 15 18)])) (S 15 22) [] []) (S 15 24))) [] None [O S ";" 15 26]); (SExpr (ECall [] (EPath [] (mk_path false [mk_seg "Err" [] (S 17 5)])) (S 17 8) [(ETuple [] (S 17 9) [] [])] []) None)]).
Definition args_walker_expr_index_2 : list meta := let S := at_ "<hooq_root>/tests/walker/expr/index.rs" in [].
Definition rec_walker_expr_index_2 : list string :=
  ["fn func ( ) - > Result < ( ) , ( ) > { let _ = v ( ) . inspect_err ( | e | { let path = ""<hooq_root>/tests/walker/expr/index.rs"" ; let line = 15usize";
   "; let col = 16usize ; let expr = ""\s\s15>\s\s\s\sv()?\n\s\s\s\s|"" ; { : : std : : io : : _eprint ( format_args ! ( ""[{0}:{1}:{2}]\s{3:?}\n{4}\n"" ,";
   "path , line , col , e , expr ) ) ; } ; } ) ? [ hoge ( ) . inspect_err ( | e | { let path = ""<hooq_root>/tests/walker/expr/index.rs"" ; let line =";
   "15usize ; let col = 24usize ; let expr = ""\s\s15>\s\s\s\shoge()?\n\s\s\s\s|"" ; { : : std : : io : : _eprint ( format_args ! (";
   """[{0}:{1}:{2}]\s{3:?}\n{4}\n"" , path , line , col , e , expr ) ) ; } ; } ) ? ] ; Err ( ( ) ) . inspect_err ( | e | { let path =";
   """<hooq_root>/tests/walker/expr/index.rs"" ; let line = 17usize ; let col = 5usize ; let expr = ""\s\s17>\s\s\s\sErr(())\n\s\s\s\s|"" ; { : : std : : io :";
   ": _eprint ( format_args ! ( ""[{0}:{1}:{2}]\s{3:?}\n{4}\n"" , path , line , col , e , expr ) ) ; } ; } ) }"].
(** v *)
Example recorded_walker_expr_index_0 : expanded su_walker_expr_index args_walker_expr_index_0 it_walker_expr_index_0 = words rec_walker_expr_index_0.
Proof. vm_compute. reflexivity. Qed.
(** hoge *)
Example recorded_walker_expr_index_1 : expanded su_walker_expr_index args_walker_expr_index_1 it_walker_expr_index_1 = words rec_walker_expr_index_1.
Proof. vm_compute. reflexivity. Qed.
(** func *)
Example recorded_walker_expr_index_2 : expanded su_walker_expr_index args_walker_expr_index_2 it_walker_expr_index_2 = words rec_walker_expr_index_2.
Proof. vm_compute. reflexivity. Qed.
(** ** hooq-macros/tests/walker/expr/let.rs *)
Definition doc_walker_expr_let : list (string * ftable) := [].
Definition texts_walker_expr_let : list (string * list tt) := let S := at_ "" in [].
Definition strs_walker_expr_let : list (string * string) :=
  [("( no tag )", "(no tag)");
   ("hoge is 10", "hoge is 10
");
   ("hoge is not 10", "hoge is not 10
");
   ("tag : { 0 }", "tag: {0}
")].
Definition ends_walker_expr_let : list (N * N * (N * N * string)) :=
  [(3, 2, (3, 8, "")); (4, 8, (4, 18, "")); (4, 36, (4, 38, "")); (4, 40, (6, 2, "")); (5, 7, (5, 14, "")); (8, 2, (8, 8, "")); (9, 2, (11, 5, "")); (9, 15, (11, 4, "")); (9, 24, (11, 3, "")); (9, 29, (11, 2, "")); (10, 13, (10, 30, "")); (10, 14, (10, 23, """tag: {}""")); (12, 2, (12, 26, "")); (12, 15, (12, 25, """(no tag)""")); (13, 8, (13, 10, "")); (13, 21, (13, 23, "")); (13, 25, (13, 27, "")); (13, 29, (30, 2, "")); (14, 21, (14, 25, "")); (15, 13, (15, 39, "")); (15, 26, (15, 38, """second let""")); (16, 22, (16, 26, "")); (17, 5, (23, 6, "")); (18, 17, (18, 31, "")); (18, 18, (18, 30, """hoge is 10""")); (20, 21, (20, 24, "")); (22, 13, (22, 16, "")); (22, 20, (22, 28, "")); (22, 25, (22, 27, "")); (23, 12, (29, 6, "")); (24, 17, (24, 35, "")); (24, 18, (24, 34, """hoge is not 10""")); (26, 21, (26, 24, "")); (28, 12, (28, 16, "")); (28, 13, (28, 15, "")); (32, 2, (32, 8, "")); (33, 8, (33, 10, "")); (33, 11, (35, 2, "")); (34, 9, (34, 11, "")); (34, 18, (34, 20, ""))].
Definition su_walker_expr_let : setup := mk_setup (mk_features false false true false false "hooq") doc_walker_expr_let texts_walker_expr_let strs_walker_expr_let [] ends_walker_expr_let "let".
Definition it_walker_expr_let_0 : item := let S := at_ "hooq-macros/tests/walker/expr/let.rs" in
  (IFn [] [] (mk_sig "hoge" (RetPath (mk_path false [mk_seg "Result" [O S "<" 4 28; I S "usize" 4 29; O S "," 4 34; G S Parenth [] 4 36; O S ">" 4 38] (S 4 22)])) [I S "fn" 4 1; I S "hoge" 4 4; G S Parenth [I S "v" 4 9; O S ":" 4 10; I S "usize" 4 12] 4 8; O S "-" 4 19; O S ">" 4 20; I S "Result" 4 22; O S "<" 4 28; I S "usize" 4 29; O S "," 4 34; G S Parenth [] 4 36; O S ">" 4 38]) (S 4 40) [(SExpr (ECall [] (EPath [] (mk_path false [mk_seg "Ok" [] (S 5 5)])) (S 5 7) [(EBinary [] (EPath [] (mk_path false [mk_seg "v" [] (S 5 8)])) [O S "+" 5 10] (ELit [] (LOther "1") (S 5 12)))] []) None)]).
Definition args_walker_expr_let_0 : list meta := let S := at_ "hooq-macros/tests/walker/expr/let.rs" in [].
Definition rec_walker_expr_let_0 : list string :=
  ["fn hoge ( v : usize ) - > Result < usize , ( ) > { Ok ( v + 1 ) }"].
Definition it_walker_expr_let_1 : item := let S := at_ "hooq-macros/tests/walker/expr/let.rs" in
  (IFn [mk_attr false (S 9 1) (MList (mk_path false [mk_seg "hooq" [] (S 9 3); mk_seg "method" [] (S 9 9)]) Parenth [O S "." 9 16; I S "inspect" 9 17; G S Parenth [O S "|" 9 25; I S "_" 9 26; O S "|" 9 27; G S Brace [I S "println" 10 5; O S "!" 10 12; G S Parenth [L S (LStr "tag: {}") 10 14; O S "," 10 23; O S "$" 10 25; I S "tag" 10 26] 10 13; O S ";" 10 30] 9 29] 9 24] (S 9 15)); mk_attr false (S 12 1) (MNameValue (mk_path false [mk_seg "hooq" [] (S 12 3); mk_seg "tag" [] (S 12 9)]) (VStr "(no tag)" (S 12 15)))] [] (mk_sig "func" (RetPath (mk_path false [mk_seg "Result" [O S "<" 13 20; G S Parenth [] 13 21; O S "," 13 23; G S Parenth [] 13 25; O S ">" 13 27] (S 13 14)])) [I S "fn" 13 1; I S "func" 13 4; G S Parenth [] 13 8; O S "-" 13 11; O S ">" 13 12; I S "Result" 13 14; O S "<" 13 20; G S Parenth [] 13 21; O S "," 13 23; G S Parenth [] 13 25; O S ">" 13 27]) (S 13 29) [(SExpr (EIf [] [I S "if" 14 5] (EBinary [] (ELet [] [I S "let" 14 8; L S (LOther "11") 14 12; O S "=" 14 15] (ETry [] (ECall [] (EPath [] (mk_path false [mk_seg "hoge" [] (S 14 17)])) (S 14 21) [(ELit [] (LOther "10") (S 14 22))] []) (S 14 25))) [O S "&" 15 9; O S "&" 15 10] (ELet [mk_attr false (S 15 12) (MNameValue (mk_path false [mk_seg "hooq" [] (S 15 14); mk_seg "tag" [] (S 15 20)]) (VStr "second let" (S 15 26)))] [I S "let" 16 9; L S (LOther "12") 16 13; O S "=" 16 16] (ETry [] (ECall [] (EPath [] (mk_path false [mk_seg "hoge" [] (S 16 18)])) (S 16 22) [(ELit [] (LOther "11") (S 16 23))] []) (S 16 26)))) (S 17 5) [(SMacro [] (Mac (mk_path false [mk_seg "println" [] (S 18 9)]) Parenth (S 18 17) [L S (LStr "hoge is 10") 18 18] (Some [VExpr (ELit [] (LStr "hoge is 10") (S 18 18)) []])) [O S ";" 18 31]); (SLocalInit [] [I S "let" 20 9; I S "_" 20 13; O S "=" 20 15] (ETry [] (ECall [] (EPath [] (mk_path false [mk_seg "hoge" [] (S 20 17)])) (S 20 21) [(ELit [] (LOther "0") (S 20 22))] []) (S 20 24)) [] None [O S ";" 20 25]); (SExpr (EMethodCall [] (ECall [] (EPath [] (mk_path false [mk_seg "hoge" [] (S 22 9)])) (S 22 13) [(ELit [] (LOther "0") (S 22 14))] []) [O S "." 22 16; I S "map" 22 17] (S 22 20) [(EClosure [] [O S "|" 22 21; I S "_" 22 22; O S "|" 22 23] RetNone (ETuple [] (S 22 25) [] []))] []) None)] [I S "else" 23 7] (Some (EBlock [] [] (S 23 12) [(SMacro [] (Mac (mk_path false [mk_seg "println" [] (S 24 9)]) Parenth (S 24 17) [L S (LStr "hoge is not 10") 24 18] (Some [VExpr (ELit [] (LStr "hoge is not 10") (S 24 18)) []])) [O S ";" 24 35]); (SLocalInit [] [I S "let" 26 9; I S "_" 26 13; O S "=" 26 15] (ETry [] (ECall [] (EPath [] (mk_path false [mk_seg "hoge" [] (S 26 17)])) (S 26 21) [(ELit [] (LOther "0") (S 26 22))] []) (S 26 24)) [] None [O S ";" 26 25]); (SExpr (ECall [] (EPath [] (mk_path false [mk_seg "Err" [] (S 28 9)])) (S 28 12) [(ETuple [] (S 28 13) [] [])] []) None)]))) None)]).
Definition args_walker_expr_let_1 : list meta := let S := at_ "hooq-macros/tests/walker/expr/let.rs" in [].
Definition rec_walker_expr_let_1 : list string :=
  ["fn func ( ) - > Result < ( ) , ( ) > { if let 11 = hoge ( 10 ) . inspect ( | _ | { { : : std : : io : : _print ( format_args ! ( ""tag:\s{0}\n"" ,";
   """(no\stag)"" ) ) ; } ; } ) ? & & let 12 = hoge ( 11 ) . inspect ( | _ | { { : : std : : io : : _print ( format_args ! ( ""tag:\s{0}\n"" , ""second\slet"" )";
   ") ; } ; } ) ? { { : : std : : io : : _print ( format_args ! ( ""hoge\sis\s10\n"" ) ) ; } ; let _ = hoge ( 0 ) . inspect ( | _ | { { : : std : : io : :";
   "_print ( format_args ! ( ""tag:\s{0}\n"" , ""(no\stag)"" ) ) ; } ; } ) ? ; hoge ( 0 ) . map ( | _ | ( ) ) } else { { : : std : : io : : _print (";
   "format_args ! ( ""hoge\sis\snot\s10\n"" ) ) ; } ; let _ = hoge ( 0 ) . inspect ( | _ | { { : : std : : io : : _print ( format_args ! ( ""tag:\s{0}\n"" ,";
   """(no\stag)"" ) ) ; } ; } ) ? ; Err ( ( ) ) . inspect ( | _ | { { : : std : : io : : _print ( format_args ! ( ""tag:\s{0}\n"" , ""(no\stag)"" ) ) ; } ; } )";
   "} . inspect ( | _ | { { : : std : : io : : _print ( format_args ! ( ""tag:\s{0}\n"" , ""(no\stag)"" ) ) ; } ; } ) }"].
(** hoge *)
Example recorded_walker_expr_let_0 : expanded su_walker_expr_let args_walker_expr_let_0 it_walker_expr_let_0 = words rec_walker_expr_let_0.
Proof. vm_compute. reflexivity. Qed.
(** func *)
Example recorded_walker_expr_let_1 : expanded su_walker_expr_let args_walker_expr_let_1 it_walker_expr_let_1 = words rec_walker_expr_let_1.
Proof. vm_compute. reflexivity. Qed.
(** ** hooq-macros/tests/walker/expr/loop.rs *)
Definition doc_walker_expr_loop : list (string * ftable) := [].
Definition texts_walker_expr_loop : list (string * list tt) := let S := at_ "" in [].
Definition strs_walker_expr_loop : list (string * string) :=
  [("( no tag )", "(no tag)");
   ("5 > Err ( ( ) ) |", "   5>    Err(())
    |");
   ("< hooq_root > / tests / walker / expr / loop . rs", "<hooq_root>/tests/walker/expr/loop.rs");
   ("[ { 0 } : { 1 } : { 2 } ] { 3 : ? } { 4 }", "[{0}:{1}:{2}] {3:?}
{4}
");
   ("tag : { 0 }", "tag: {0}
")].
Definition ends_walker_expr_loop : list (N * N * (N * N * string)) :=
  [(3, 2, (3, 8, "")); (4, 8, (4, 10, "")); (4, 21, (4, 23, "")); (4, 25, (4, 27, "")); (4, 29, (6, 2, "")); (5, 8, (5, 12, "")); (5, 9, (5, 11, "")); (8, 2, (8, 8, "")); (9, 2, (11, 5, "")); (9, 15, (11, 4, "")); (9, 24, (11, 3, "")); (9, 29, (11, 2, "")); (10, 13, (10, 30, "")); (10, 14, (10, 23, """tag: {}""")); (12, 2, (12, 26, "")); (12, 15, (12, 25, """(no tag)""")); (13, 8, (13, 26, "")); (13, 37, (13, 39, "")); (13, 41, (13, 43, "")); (13, 45, (42, 2, "")); (14, 36, (14, 38, "")); (16, 10, (39, 6, "")); (17, 13, (17, 15, "")); (19, 22, (19, 24, "")); (19, 34, (19, 41, "")); (19, 42, (21, 10, "")); (20, 23, (20, 27, "")); (20, 24, (20, 26, "")); (23, 22, (23, 24, "")); (23, 34, (23, 41, "")); (23, 42, (25, 10, "")); (24, 24, (24, 26, "")); (28, 22, (28, 24, "")); (28, 34, (28, 41, "")); (28, 42, (30, 10, "")); (29, 22, (29, 26, "")); (29, 23, (29, 25, "")); (32, 22, (32, 24, "")); (32, 34, (32, 41, "")); (32, 42, (34, 10, "")); (33, 21, (33, 30, "")); (33, 26, (33, 28, "")); (36, 22, (36, 24, "")); (36, 34, (36, 41, "")); (36, 42, (38, 10, "")); (37, 23, (37, 25, "")); (41, 8, (41, 12, "")); (41, 9, (41, 11, "")); (44, 2, (44, 8, "")); (45, 8, (45, 10, "")); (45, 11, (47, 2, "")); (46, 9, (46, 56, "")); (46, 14, (46, 55, "")); (46, 67, (46, 69, ""))].
Definition su_walker_expr_loop : setup := mk_setup (mk_features false false true false false "hooq") doc_walker_expr_loop texts_walker_expr_loop strs_walker_expr_loop [] ends_walker_expr_loop "loop".
Definition it_walker_expr_loop_0 : item := let S := at_ "<hooq_root>/tests/walker/expr/loop.rs" in
  (IFn [] [] (mk_sig "hoge" (RetPath (mk_path false [mk_seg "Result" [O S "<" 4 20; G S Parenth [] 4 21; O S "," 4 23; G S Parenth [] 4 25; O S ">" 4 27] (S 4 14)])) [I S "fn" 4 1; I S "hoge" 4 4; G S Parenth [] 4 8; O S "-" 4 11; O S ">" 4 12; I S "Result" 4 14; O S "<" 4 20; G S Parenth [] 4 21; O S "," 4 23; G S Parenth [] 4 25; O S ">" 4 27]) (S 4 29) [(SExpr (ECall [] (EPath [] (mk_path false [mk_seg "Err" [] (S 5 5)])) (S 5 8) [(ETuple [] (S 5 9) [] [])] []) None)]).
Definition args_walker_expr_loop_0 : list meta := let S := at_ "<hooq_root>/tests/walker/expr/loop.rs" in [].
Definition rec_walker_expr_loop_0 : list string :=
  ["fn hoge ( ) - > Result < ( ) , ( ) > { Err ( ( ) ) . inspect_err ( | e | { let path = ""<hooq_root>/tests/walker/expr/loop.rs"" ; let line = 5usize ;";
   "let col = 5usize ; let expr = ""\s\s\s5>\s\s\s\sErr(())\n\s\s\s\s|"" ; { : : std : : io : : _eprint ( format_args ! ( ""[{0}:{1}:{2}]\s{3:?}\n{4}\n"" ,";
   "path , line , col , e , expr ) ) ; } ; } ) }"].
Definition it_walker_expr_loop_1 : item := let S := at_ "<hooq_root>/tests/walker/expr/loop.rs" in
  (IFn [mk_attr false (S 9 1) (MList (mk_path false [mk_seg "hooq" [] (S 9 3); mk_seg "method" [] (S 9 9)]) Parenth [O S "." 9 16; I S "inspect" 9 17; G S Parenth [O S "|" 9 25; I S "_" 9 26; O S "|" 9 27; G S Brace [I S "println" 10 5; O S "!" 10 12; G S Parenth [L S (LStr "tag: {}") 10 14; O S "," 10 23; O S "$" 10 25; I S "tag" 10 26] 10 13; O S ";" 10 30] 9 29] 9 24] (S 9 15)); mk_attr false (S 12 1) (MNameValue (mk_path false [mk_seg "hooq" [] (S 12 3); mk_seg "tag" [] (S 12 9)]) (VStr "(no tag)" (S 12 15)))] [] (mk_sig "func" (RetPath (mk_path false [mk_seg "Result" [O S "<" 13 36; G S Parenth [] 13 37; O S "," 13 39; G S Parenth [] 13 41; O S ">" 13 43] (S 13 30)])) [I S "fn" 13 1; I S "func" 13 4; G S Parenth [I S "flags" 13 9; O S ":" 13 14; I S "Vec" 13 16; O S "<" 13 19; I S "bool" 13 20; O S ">" 13 24] 13 8; O S "-" 13 27; O S ">" 13 28; I S "Result" 13 30; O S "<" 13 36; G S Parenth [] 13 37; O S "," 13 39; G S Parenth [] 13 41; O S ">" 13 43]) (S 13 45) [(SLocalInit [] [I S "let" 14 5; I S "mut" 14 9; I S "flags" 14 13; O S "=" 14 19] (EMethodCall [] (EPath [] (mk_path false [mk_seg "flags" [] (S 14 21)])) [O S "." 14 26; I S "into_iter" 14 27] (S 14 36) [] []) [] None [O S ";" 14 38]); (SExpr (ETry [] (ELoop [] [I S "loop" 16 5] (S 16 10) [(SExpr (ETry [] (ECall [] (EPath [] (mk_path false [mk_seg "hoge" [] (S 17 9)])) (S 17 13) [] []) (S 17 15)) (Some (S 17 16))); (SExpr (EIf [] [I S "if" 19 9] (EMethodCall [] (EMethodCall [] (EPath [] (mk_path false [mk_seg "flags" [] (S 19 12)])) [O S "." 19 17; I S "next" 19 18] (S 19 22) [] []) [O S "." 19 24; I S "unwrap_or" 19 25] (S 19 34) [(EPath [] (mk_path false [mk_seg "false" [] (S 19 35)]))] []) (S 19 42) [(SExpr (EReturn [] (S 20 13) (Some (ECall [] (EPath [] (mk_path false [mk_seg "Err" [] (S 20 20)])) (S 20 23) [(ETuple [] (S 20 24) [] [])] []))) (Some (S 20 27)))] [] None) None); (SExpr (EIf [] [I S "if" 23 9] (EMethodCall [] (EMethodCall [] (EPath [] (mk_path false [mk_seg "flags" [] (S 23 12)])) [O S "." 23 17; I S "next" 23 18] (S 23 22) [] []) [O S "." 23 24; I S "unwrap_or" 23 25] (S 23 34) [(EPath [] (mk_path false [mk_seg "false" [] (S 23 35)]))] []) (S 23 42) [(SExpr (EReturn [] (S 24 13) (Some (ECall [] (EPath [] (mk_path false [mk_seg "hoge" [] (S 24 20)])) (S 24 24) [] []))) (Some (S 24 26)))] [] None) None); (SExpr (EIf [] [I S "if" 28 9] (EMethodCall [] (EMethodCall [] (EPath [] (mk_path false [mk_seg "flags" [] (S 28 12)])) [O S "." 28 17; I S "next" 28 18] (S 28 22) [] []) [O S "." 28 24; I S "unwrap_or" 28 25] (S 28 34) [(EPath [] (mk_path false [mk_seg "false" [] (S 28 35)]))] []) (S 28 42) [(SExpr (EBreak [] [I S "break" 29 13] (Some (ECall [] (EPath [] (mk_path false [mk_seg "Err" [] (S 29 19)])) (S 29 22) [(ETuple [] (S 29 23) [] [])] []))) (Some (S 29 26)))] [] None) None); (SExpr (EIf [] [I S "if" 32 9] (EMethodCall [] (EMethodCall [] (EPath [] (mk_path false [mk_seg "flags" [] (S 32 12)])) [O S "." 32 17; I S "next" 32 18] (S 32 22) [] []) [O S "." 32 24; I S "unwrap_or" 32 25] (S 32 34) [(EPath [] (mk_path false [mk_seg "false" [] (S 32 35)]))] []) (S 32 42) [(SExpr (EBreak [] [I S "break" 33 13] (Some (ECall [] (EPath [] (mk_path false [mk_seg "Ok" [] (S 33 19)])) (S 33 21) [(ETry [] (ECall [] (EPath [] (mk_path false [mk_seg "hoge" [] (S 33 22)])) (S 33 26) [] []) (S 33 28))] []))) (Some (S 33 30)))] [] None) None); (SExpr (EIf [] [I S "if" 36 9] (EMethodCall [] (EMethodCall [] (EPath [] (mk_path false [mk_seg "flags" [] (S 36 12)])) [O S "." 36 17; I S "next" 36 18] (S 36 22) [] []) [O S "." 36 24; I S "unwrap_or" 36 25] (S 36 34) [(EPath [] (mk_path false [mk_seg "false" [] (S 36 35)]))] []) (S 36 42) [(SExpr (EBreak [] [I S "break" 37 13] (Some (ECall [] (EPath [] (mk_path false [mk_seg "hoge" [] (S 37 19)])) (S 37 23) [] []))) (Some (S 37 25)))] [] None) None)]) (S 39 6)) (Some (S 39 7))); (SExpr (ECall [] (EPath [] (mk_path false [mk_seg "Err" [] (S 41 5)])) (S 41 8) [(ETuple [] (S 41 9) [] [])] []) None)]).
Definition args_walker_expr_loop_1 : list meta := let S := at_ "<hooq_root>/tests/walker/expr/loop.rs" in [].
Definition rec_walker_expr_loop_1 : list string :=
  ["fn func ( flags : Vec < bool > ) - > Result < ( ) , ( ) > { let mut flags = flags . into_iter ( ) ; loop { hoge ( ) . inspect ( | _ | { { : : std : :";
   "io : : _print ( format_args ! ( ""tag:\s{0}\n"" , ""(no\stag)"" ) ) ; } ; } ) ? ; if flags . next ( ) . unwrap_or ( false ) { return Err ( ( ) ) . inspect";
   "( | _ | { { : : std : : io : : _print ( format_args ! ( ""tag:\s{0}\n"" , ""(no\stag)"" ) ) ; } ; } ) ; } if flags . next ( ) . unwrap_or ( false ) {";
   "return hoge ( ) . inspect ( | _ | { { : : std : : io : : _print ( format_args ! ( ""tag:\s{0}\n"" , ""(no\stag)"" ) ) ; } ; } ) ; } if flags . next ( ) .";
   "unwrap_or ( false ) { break Err ( ( ) ) ; } if flags . next ( ) . unwrap_or ( false ) { break Ok ( hoge ( ) . inspect ( | _ | { { : : std : : io : :";
   "_print ( format_args ! ( ""tag:\s{0}\n"" , ""(no\stag)"" ) ) ; } ; } ) ? ) ; } if flags . next ( ) . unwrap_or ( false ) { break hoge ( ) ; } } . inspect";
   "( | _ | { { : : std : : io : : _print ( format_args ! ( ""tag:\s{0}\n"" , ""(no\stag)"" ) ) ; } ; } ) ? ; Err ( ( ) ) . inspect ( | _ | { { : : std : : io";
   ": : _print ( format_args ! ( ""tag:\s{0}\n"" , ""(no\stag)"" ) ) ; } ; } ) }"].
(** hoge *)
Example recorded_walker_expr_loop_0 : expanded su_walker_expr_loop args_walker_expr_loop_0 it_walker_expr_loop_0 = words rec_walker_expr_loop_0.
Proof. vm_compute. reflexivity. Qed.
(** func *)
Example recorded_walker_expr_loop_1 : expanded su_walker_expr_loop args_walker_expr_loop_1 it_walker_expr_loop_1 = words rec_walker_expr_loop_1.
Proof. vm_compute. reflexivity. Qed.
(** ** hooq-macros/tests/walker/expr/macro.rs *)
Definition doc_walker_expr_macro : list (string * ftable) := [].
Definition texts_walker_expr_macro : list (string * list tt) := let S := at_ "" in [].
Definition strs_walker_expr_macro : list (string * string) :=
  [("( no tag )", "(no tag)");
   ("Err ( ( ) )", "Err(())");
   ("enresult ( 10 ) ?", "enresult(10) ?");
   ("enresult ( 2 ) ?", "enresult(2) ?");
   ("enresult ( 20 ) ?", "enresult(20) ?");
   ("enresult ( 30 ) ?", "enresult(30) ?");
   ("tag : { 0 } , expr : { 1 }", "tag: {0}, expr: {1}
")].
Definition ends_walker_expr_macro : list (N * N * (N * N * string)) :=
  [(3, 2, (3, 8, "")); (4, 15, (4, 21, "")); (4, 35, (4, 37, "")); (4, 39, (6, 2, "")); (5, 7, (5, 10, "")); (8, 2, (8, 8, "")); (9, 2, (11, 5, "")); (9, 15, (11, 4, "")); (9, 24, (11, 3, "")); (9, 29, (11, 2, "")); (10, 13, (10, 61, "")); (10, 14, (10, 33, """tag: {}, expr: {}""")); (10, 51, (10, 60, "")); (12, 2, (12, 26, "")); (12, 15, (12, 25, """(no tag)""")); (13, 8, (13, 10, "")); (13, 21, (13, 23, "")); (13, 25, (13, 27, "")); (13, 29, (27, 2, "")); (14, 14, (14, 35, "")); (14, 27, (14, 34, """outer""")); (15, 9, (15, 38, "")); (15, 18, (15, 22, "")); (15, 33, (15, 36, "")); (17, 17, (24, 6, "")); (18, 10, (18, 33, "")); (18, 23, (18, 32, """inner 1""")); (19, 17, (19, 21, "")); (20, 10, (20, 33, "")); (20, 23, (20, 32, """inner 2""")); (21, 17, (21, 21, "")); (22, 10, (22, 33, "")); (22, 23, (22, 32, """inner 3""")); (23, 17, (23, 21, "")); (26, 8, (26, 12, "")); (26, 9, (26, 11, "")); (29, 2, (29, 8, "")); (30, 8, (30, 10, "")); (30, 11, (32, 2, "")); (31, 9, (31, 11, "")); (31, 22, (31, 24, ""))].
Definition su_walker_expr_macro : setup := mk_setup (mk_features false false true false false "hooq") doc_walker_expr_macro texts_walker_expr_macro strs_walker_expr_macro [] ends_walker_expr_macro "macro".
Definition it_walker_expr_macro_0 : item := let S := at_ "hooq-macros/tests/walker/expr/macro.rs" in
  (IFn [] [] (mk_sig "enresult" (RetPath (mk_path false [mk_seg "Result" [O S "<" 4 31; I S "T" 4 32; O S "," 4 33; G S Parenth [] 4 35; O S ">" 4 37] (S 4 25)])) [I S "fn" 4 1; I S "enresult" 4 4; O S "<" 4 12; I S "T" 4 13; O S ">" 4 14; G S Parenth [I S "v" 4 16; O S ":" 4 17; I S "T" 4 19] 4 15; O S "-" 4 22; O S ">" 4 23; I S "Result" 4 25; O S "<" 4 31; I S "T" 4 32; O S "," 4 33; G S Parenth [] 4 35; O S ">" 4 37]) (S 4 39) [(SExpr (ECall [] (EPath [] (mk_path false [mk_seg "Ok" [] (S 5 5)])) (S 5 7) [(EPath [] (mk_path false [mk_seg "v" [] (S 5 8)]))] []) None)]).
Definition args_walker_expr_macro_0 : list meta := let S := at_ "hooq-macros/tests/walker/expr/macro.rs" in [].
Definition rec_walker_expr_macro_0 : list string :=
  ["fn enresult < T > ( v : T ) - > Result < T , ( ) > { Ok ( v ) }"].
Definition it_walker_expr_macro_1 : item := let S := at_ "hooq-macros/tests/walker/expr/macro.rs" in
  (IFn [mk_attr false (S 9 1) (MList (mk_path false [mk_seg "hooq" [] (S 9 3); mk_seg "method" [] (S 9 9)]) Parenth [O S "." 9 16; I S "inspect" 9 17; G S Parenth [O S "|" 9 25; I S "_" 9 26; O S "|" 9 27; G S Brace [I S "println" 10 5; O S "!" 10 12; G S Parenth [L S (LStr "tag: {}, expr: {}") 10 14; O S "," 10 33; O S "$" 10 35; I S "tag" 10 36; O S "," 10 39; I S "stringify" 10 41; O S "!" 10 50; G S Parenth [O S "$" 10 52; I S "source" 10 53] 10 51] 10 13; O S ";" 10 61] 9 29] 9 24] (S 9 15)); mk_attr false (S 12 1) (MNameValue (mk_path false [mk_seg "hooq" [] (S 12 3); mk_seg "tag" [] (S 12 9)]) (VStr "(no tag)" (S 12 15)))] [] (mk_sig "func" (RetPath (mk_path false [mk_seg "Result" [O S "<" 13 20; G S Parenth [] 13 21; O S "," 13 23; G S Parenth [] 13 25; O S ">" 13 27] (S 13 14)])) [I S "fn" 13 1; I S "func" 13 4; G S Parenth [] 13 8; O S "-" 13 11; O S ">" 13 12; I S "Result" 13 14; O S "<" 13 20; G S Parenth [] 13 21; O S "," 13 23; G S Parenth [] 13 25; O S ">" 13 27]) (S 13 29) [(SLocalInit [] [I S "let" 14 5; I S "_" 14 9; O S "=" 14 11] (EMacro [mk_attr false (S 14 13) (MNameValue (mk_path false [mk_seg "hooq" [] (S 14 15); mk_seg "tag" [] (S 14 21)]) (VStr "outer" (S 14 27)))] (Mac (mk_path false [mk_seg "vec" [] (S 15 5)]) Bracket (S 15 9) [I S "enresult" 15 10; G S Parenth [L S (LOther "10") 15 19] 15 18; O S "?" 15 22; O S ";" 15 23; I S "enresult" 15 25; G S Parenth [L S (LOther "2") 15 34] 15 33; O S "?" 15 36] (Some [VExpr (ETry [] (ECall [] (EPath [] (mk_path false [mk_seg "enresult" [] (S 15 10)])) (S 15 18) [(ELit [] (LOther "10") (S 15 19))] []) (S 15 22)) [O S ";" 15 23]; VExpr (ETry [] (ECall [] (EPath [] (mk_path false [mk_seg "enresult" [] (S 15 25)])) (S 15 33) [(ELit [] (LOther "2") (S 15 34))] []) (S 15 36)) []]))) [] None [O S ";" 15 38]); (SLocalInit [] [I S "let" 17 5; I S "_" 17 9; O S "=" 17 11] (EMacro [] (Mac (mk_path false [mk_seg "vec" [] (S 17 13)]) Bracket (S 17 17) [O S "#" 18 9; G S Bracket [I S "hooq" 18 11; O S ":" 18 15; O S ":" 18 16; I S "tag" 18 17; O S "=" 18 21; L S (LStr "inner 1") 18 23] 18 10; I S "enresult" 19 9; G S Parenth [L S (LOther "10") 19 18] 19 17; O S "?" 19 21; O S "," 19 22; O S "#" 20 9; G S Bracket [I S "hooq" 20 11; O S ":" 20 15; O S ":" 20 16; I S "tag" 20 17; O S "=" 20 21; L S (LStr "inner 2") 20 23] 20 10; I S "enresult" 21 9; G S Parenth [L S (LOther "20") 21 18] 21 17; O S "?" 21 21; O S "," 21 22; O S "#" 22 9; G S Bracket [I S "hooq" 22 11; O S ":" 22 15; O S ":" 22 16; I S "tag" 22 17; O S "=" 22 21; L S (LStr "inner 3") 22 23] 22 10; I S "enresult" 23 9; G S Parenth [L S (LOther "30") 23 18] 23 17; O S "?" 23 21; O S "," 23 22] (Some [VExpr (ETry [mk_attr false (S 18 9) (MNameValue (mk_path false [mk_seg "hooq" [] (S 18 11); mk_seg "tag" [] (S 18 17)]) (VStr "inner 1" (S 18 23)))] (ECall [] (EPath [] (mk_path false [mk_seg "enresult" [] (S 19 9)])) (S 19 17) [(ELit [] (LOther "10") (S 19 18))] []) (S 19 21)) [O S "," 19 22]; VExpr (ETry [mk_attr false (S 20 9) (MNameValue (mk_path false [mk_seg "hooq" [] (S 20 11); mk_seg "tag" [] (S 20 17)]) (VStr "inner 2" (S 20 23)))] (ECall [] (EPath [] (mk_path false [mk_seg "enresult" [] (S 21 9)])) (S 21 17) [(ELit [] (LOther "20") (S 21 18))] []) (S 21 21)) [O S "," 21 22]; VExpr (ETry [mk_attr false (S 22 9) (MNameValue (mk_path false [mk_seg "hooq" [] (S 22 11); mk_seg "tag" [] (S 22 17)]) (VStr "inner 3" (S 22 23)))] (ECall [] (EPath [] (mk_path false [mk_seg "enresult" [] (S 23 9)])) (S 23 17) [(ELit [] (LOther "30") (S 23 18))] []) (S 23 21)) [O S "," 23 22]]))) [] None [O S ";" 24 6]); (SExpr (ECall [] (EPath [] (mk_path false [mk_seg "Err" [] (S 26 5)])) (S 26 8) [(ETuple [] (S 26 9) [] [])] []) None)]).
Definition args_walker_expr_macro_1 : list meta := let S := at_ "hooq-macros/tests/walker/expr/macro.rs" in [].
Definition rec_walker_expr_macro_1 : list string :=
  ["fn func ( ) - > Result < ( ) , ( ) > { let _ = : : alloc : : vec : : from_elem ( enresult ( 10 ) . inspect ( | _ | { { : : std : : io : : _print (";
   "format_args ! ( ""tag:\s{0},\sexpr:\s{1}\n"" , ""outer"" , ""enresult(10)\s?"" ) ) ; } ; } ) ? , enresult ( 2 ) . inspect ( | _ | { { : : std : : io : :";
   "_print ( format_args ! ( ""tag:\s{0},\sexpr:\s{1}\n"" , ""outer"" , ""enresult(2)\s?"" ) ) ; } ; } ) ? ) ; let _ = < [ _ ] > : : into_vec ( : : alloc : :";
   "boxed : : box_new ( [ enresult ( 10 ) . inspect ( | _ | { { : : std : : io : : _print ( format_args ! ( ""tag:\s{0},\sexpr:\s{1}\n"" , ""inner\s1"" ,";
   """enresult(10)\s?"" ) ) ; } ; } ) ? , enresult ( 20 ) . inspect ( | _ | { { : : std : : io : : _print ( format_args ! ( ""tag:\s{0},\sexpr:\s{1}\n"" ,";
   """inner\s2"" , ""enresult(20)\s?"" ) ) ; } ; } ) ? , enresult ( 30 ) . inspect ( | _ | { { : : std : : io : : _print ( format_args ! (";
   """tag:\s{0},\sexpr:\s{1}\n"" , ""inner\s3"" , ""enresult(30)\s?"" ) ) ; } ; } ) ? ] ) ) ; Err ( ( ) ) . inspect ( | _ | { { : : std : : io : : _print (";
   "format_args ! ( ""tag:\s{0},\sexpr:\s{1}\n"" , ""(no\stag)"" , ""Err(())"" ) ) ; } ; } ) }"].
(** enresult *)
Example recorded_walker_expr_macro_0 : expanded su_walker_expr_macro args_walker_expr_macro_0 it_walker_expr_macro_0 = words rec_walker_expr_macro_0.
Proof. vm_compute. reflexivity. Qed.
(** func *)
Example recorded_walker_expr_macro_1 : expanded su_walker_expr_macro args_walker_expr_macro_1 it_walker_expr_macro_1 = words rec_walker_expr_macro_1.
Proof. vm_compute. reflexivity. Qed.
(** ** hooq-macros/tests/walker/expr/match.rs *)
Definition doc_walker_expr_match : list (string * ftable) := [].
Definition texts_walker_expr_match : list (string * list tt) := let S := at_ "" in [].
Definition strs_walker_expr_match : list (string * string) :=
  [("( no tag )", "(no tag)");
   ("Matched 0 . . = 10", "Matched 0..=10
");
   ("Matched other case", "Matched other case
");
   ("tag : { 0 }", "tag: {0}
")].
Definition ends_walker_expr_match : list (N * N * (N * N * string)) :=
  [(3, 2, (3, 8, "")); (4, 8, (4, 10, "")); (4, 28, (4, 30, "")); (4, 32, (6, 2, "")); (5, 7, (5, 11, "")); (8, 2, (8, 8, "")); (9, 2, (11, 5, "")); (9, 15, (11, 4, "")); (9, 24, (11, 3, "")); (9, 29, (11, 2, "")); (10, 13, (10, 30, "")); (10, 14, (10, 23, """tag: {}""")); (12, 2, (12, 26, "")); (12, 15, (12, 25, """(no tag)""")); (13, 2, (13, 39, "")); (13, 25, (13, 38, "")); (13, 26, (13, 30, """Ok""")); (13, 32, (13, 37, """Err""")); (14, 8, (14, 20, "")); (14, 31, (14, 33, "")); (14, 35, (14, 37, "")); (14, 39, (36, 2, "")); (15, 15, (15, 17, "")); (15, 19, (35, 6, "")); (16, 19, (25, 10, "")); (17, 21, (17, 39, "")); (17, 22, (17, 38, """Matched 0..=10""")); (18, 17, (18, 19, "")); (20, 22, (22, 14, "")); (21, 28, (21, 30, "")); (21, 34, (21, 42, "")); (21, 39, (21, 41, "")); (24, 16, (24, 20, "")); (24, 17, (24, 19, "")); (26, 14, (34, 10, "")); (27, 21, (27, 43, "")); (27, 22, (27, 42, """Matched other case""")); (29, 22, (31, 14, "")); (30, 27, (30, 31, "")); (30, 28, (30, 30, "")); (33, 16, (33, 20, "")); (33, 17, (33, 19, "")); (38, 2, (38, 8, "")); (39, 8, (39, 10, "")); (39, 11, (41, 2, "")); (40, 9, (40, 15, "")); (40, 26, (40, 28, ""))].
Definition su_walker_expr_match : setup := mk_setup (mk_features false false true false false "hooq") doc_walker_expr_match texts_walker_expr_match strs_walker_expr_match [] ends_walker_expr_match "match".
Definition it_walker_expr_match_0 : item := let S := at_ "hooq-macros/tests/walker/expr/match.rs" in
  (IFn [] [] (mk_sig "hoge" (RetPath (mk_path false [mk_seg "Result" [O S "<" 4 20; I S "usize" 4 21; O S "," 4 26; G S Parenth [] 4 28; O S ">" 4 30] (S 4 14)])) [I S "fn" 4 1; I S "hoge" 4 4; G S Parenth [] 4 8; O S "-" 4 11; O S ">" 4 12; I S "Result" 4 14; O S "<" 4 20; I S "usize" 4 21; O S "," 4 26; G S Parenth [] 4 28; O S ">" 4 30]) (S 4 32) [(SExpr (ECall [] (EPath [] (mk_path false [mk_seg "Ok" [] (S 5 5)])) (S 5 7) [(ELit [] (LOther "10") (S 5 8))] []) None)]).
Definition args_walker_expr_match_0 : list meta := let S := at_ "hooq-macros/tests/walker/expr/match.rs" in [].
Definition rec_walker_expr_match_0 : list string :=
  ["fn hoge ( ) - > Result < usize , ( ) > { Ok ( 10 ) }"].
Definition it_walker_expr_match_1 : item := let S := at_ "hooq-macros/tests/walker/expr/match.rs" in
  (IFn [mk_attr false (S 9 1) (MList (mk_path false [mk_seg "hooq" [] (S 9 3); mk_seg "method" [] (S 9 9)]) Parenth [O S "." 9 16; I S "inspect" 9 17; G S Parenth [O S "|" 9 25; I S "_" 9 26; O S "|" 9 27; G S Brace [I S "println" 10 5; O S "!" 10 12; G S Parenth [L S (LStr "tag: {}") 10 14; O S "," 10 23; O S "$" 10 25; I S "tag" 10 26] 10 13; O S ";" 10 30] 9 29] 9 24] (S 9 15)); mk_attr false (S 12 1) (MNameValue (mk_path false [mk_seg "hooq" [] (S 12 3); mk_seg "tag" [] (S 12 9)]) (VStr "(no tag)" (S 12 15))); mk_attr false (S 13 1) (MList (mk_path false [mk_seg "hooq" [] (S 13 3); mk_seg "tail_expr_idents" [] (S 13 9)]) Parenth [L S (LStr "Ok") 13 26; O S "," 13 30; L S (LStr "Err") 13 32] (S 13 25))] [] (mk_sig "func" (RetPath (mk_path false [mk_seg "Result" [O S "<" 14 30; G S Parenth [] 14 31; O S "," 14 33; G S Parenth [] 14 35; O S ">" 14 37] (S 14 24)])) [I S "fn" 14 1; I S "func" 14 4; G S Parenth [I S "flag" 14 9; O S ":" 14 13; I S "bool" 14 15] 14 8; O S "-" 14 21; O S ">" 14 22; I S "Result" 14 24; O S "<" 14 30; G S Parenth [] 14 31; O S "," 14 33; G S Parenth [] 14 35; O S ">" 14 37]) (S 14 39) [(SExpr (EMatch [] [I S "match" 15 5] (ETry [] (ECall [] (EPath [] (mk_path false [mk_seg "hoge" [] (S 15 11)])) (S 15 15) [] []) (S 15 17)) (S 15 19) [(Arm [] [L S (LOther "0") 16 9; O S "." 16 10; O S "." 16 11; O S "=" 16 12; L S (LOther "10") 16 13] [] None [O S "=" 16 16; O S ">" 16 17] (EBlock [] [] (S 16 19) [(SMacro [] (Mac (mk_path false [mk_seg "println" [] (S 17 13)]) Parenth (S 17 21) [L S (LStr "Matched 0..=10") 17 22] (Some [VExpr (ELit [] (LStr "Matched 0..=10") (S 17 22)) []])) [O S ";" 17 39]); (SExpr (ETry [] (ECall [] (EPath [] (mk_path false [mk_seg "hoge" [] (S 18 13)])) (S 18 17) [] []) (S 18 19)) (Some (S 18 20))); (SExpr (EIf [] [I S "if" 20 13] (EUnary [] [O S "!" 20 16] (EPath [] (mk_path false [mk_seg "flag" [] (S 20 17)]))) (S 20 22) [(SExpr (EReturn [] (S 21 17) (Some (EMethodCall [] (ECall [] (EPath [] (mk_path false [mk_seg "hoge" [] (S 21 24)])) (S 21 28) [] []) [O S "." 21 30; I S "map" 21 31] (S 21 34) [(EClosure [] [O S "|" 21 35; I S "_" 21 36; O S "|" 21 37] RetNone (ETuple [] (S 21 39) [] []))] []))) (Some (S 21 42)))] [] None) None); (SExpr (ECall [] (EPath [] (mk_path false [mk_seg "Err" [] (S 24 13)])) (S 24 16) [(ETuple [] (S 24 17) [] [])] []) None)]) []); (Arm [] [I S "_" 26 9] [] None [O S "=" 26 11; O S ">" 26 12] (EBlock [] [] (S 26 14) [(SMacro [] (Mac (mk_path false [mk_seg "println" [] (S 27 13)]) Parenth (S 27 21) [L S (LStr "Matched other case") 27 22] (Some [VExpr (ELit [] (LStr "Matched other case") (S 27 22)) []])) [O S ";" 27 43]); (SExpr (EIf [] [I S "if" 29 13] (EUnary [] [O S "!" 29 16] (EPath [] (mk_path false [mk_seg "flag" [] (S 29 17)]))) (S 29 22) [(SExpr (EReturn [] (S 30 17) (Some (ECall [] (EPath [] (mk_path false [mk_seg "Err" [] (S 30 24)])) (S 30 27) [(ETuple [] (S 30 28) [] [])] []))) (Some (S 30 31)))] [] None) None); (SExpr (ECall [] (EPath [] (mk_path false [mk_seg "Err" [] (S 33 13)])) (S 33 16) [(ETuple [] (S 33 17) [] [])] []) None)]) [])]) None)]).
Definition args_walker_expr_match_1 : list meta := let S := at_ "hooq-macros/tests/walker/expr/match.rs" in [].
Definition rec_walker_expr_match_1 : list string :=
  ["fn func ( flag : bool ) - > Result < ( ) , ( ) > { match hoge ( ) . inspect ( | _ | { { : : std : : io : : _print ( format_args ! ( ""tag:\s{0}\n"" ,";
   """(no\stag)"" ) ) ; } ; } ) ? { 0 . . = 10 = > { { : : std : : io : : _print ( format_args ! ( ""Matched\s0..=10\n"" ) ) ; } ; hoge ( ) . inspect ( | _ |";
   "{ { : : std : : io : : _print ( format_args ! ( ""tag:\s{0}\n"" , ""(no\stag)"" ) ) ; } ; } ) ? ; if ! flag { return hoge ( ) . map ( | _ | ( ) ) .";
   "inspect ( | _ | { { : : std : : io : : _print ( format_args ! ( ""tag:\s{0}\n"" , ""(no\stag)"" ) ) ; } ; } ) ; } Err ( ( ) ) . inspect ( | _ | { { : :";
   "std : : io : : _print ( format_args ! ( ""tag:\s{0}\n"" , ""(no\stag)"" ) ) ; } ; } ) } _ = > { { : : std : : io : : _print ( format_args ! (";
   """Matched\sother\scase\n"" ) ) ; } ; if ! flag { return Err ( ( ) ) . inspect ( | _ | { { : : std : : io : : _print ( format_args ! ( ""tag:\s{0}\n"" ,";
   """(no\stag)"" ) ) ; } ; } ) ; } Err ( ( ) ) . inspect ( | _ | { { : : std : : io : : _print ( format_args ! ( ""tag:\s{0}\n"" , ""(no\stag)"" ) ) ; } ; } )";
   "} } . inspect ( | _ | { { : : std : : io : : _print ( format_args ! ( ""tag:\s{0}\n"" , ""(no\stag)"" ) ) ; } ; } ) }"].
(** hoge *)
Example recorded_walker_expr_match_0 : expanded su_walker_expr_match args_walker_expr_match_0 it_walker_expr_match_0 = words rec_walker_expr_match_0.
Proof. vm_compute. reflexivity. Qed.
(** func *)
Example recorded_walker_expr_match_1 : expanded su_walker_expr_match args_walker_expr_match_1 it_walker_expr_match_1 = words rec_walker_expr_match_1.
Proof. vm_compute. reflexivity. Qed.
(** ** hooq-macros/tests/walker/expr/method_call.rs *)
Definition doc_walker_expr_method_call : list (string * ftable) := [].
Definition texts_walker_expr_method_call : list (string * list tt) := let S := at_ "" in [].
Definition strs_walker_expr_method_call : list (string * string) :=
  [("( no tag )", "(no tag)");
   ("tag : { 0 }", "tag: {0}
")].
Definition ends_walker_expr_method_call : list (N * N * (N * N * string)) :=
  [(5, 12, (10, 2, "")); (6, 6, (6, 12, "")); (7, 14, (7, 49, "")); (7, 60, (7, 62, "")); (7, 64, (7, 66, "")); (7, 68, (9, 6, "")); (8, 12, (8, 16, "")); (8, 13, (8, 15, "")); (12, 2, (12, 8, "")); (13, 13, (13, 15, "")); (13, 33, (13, 35, "")); (13, 37, (15, 2, "")); (14, 7, (14, 14, "")); (17, 2, (17, 8, "")); (18, 11, (18, 13, "")); (18, 31, (18, 33, "")); (18, 35, (20, 2, "")); (19, 7, (19, 11, "")); (22, 2, (22, 8, "")); (23, 2, (25, 5, "")); (23, 15, (25, 4, "")); (23, 24, (25, 3, "")); (23, 29, (25, 2, "")); (24, 13, (24, 30, "")); (24, 14, (24, 23, """tag: {}""")); (26, 2, (26, 26, "")); (26, 15, (26, 25, """(no tag)""")); (27, 8, (27, 10, "")); (27, 21, (27, 23, "")); (27, 25, (27, 27, "")); (27, 29, (31, 2, "")); (28, 14, (28, 16, "")); (28, 24, (28, 48, "")); (28, 32, (28, 34, "")); (28, 44, (28, 46, "")); (30, 8, (30, 12, "")); (30, 9, (30, 11, "")); (33, 2, (33, 8, "")); (34, 8, (34, 10, "")); (34, 11, (36, 2, "")); (35, 9, (35, 11, "")); (35, 22, (35, 24, ""))].
Definition su_walker_expr_method_call : setup := mk_setup (mk_features false false true false false "hooq") doc_walker_expr_method_call texts_walker_expr_method_call strs_walker_expr_method_call [] ends_walker_expr_method_call "method_call".
Definition it_walker_expr_method_call_0 : item := let S := at_ "<hooq_root>/tests/walker/expr/method_call.rs" in
  (IFn [] [] (mk_sig "get_strct" (RetPath (mk_path false [mk_seg "Result" [O S "<" 13 25; I S "Strct" 13 26; O S "," 13 31; G S Parenth [] 13 33; O S ">" 13 35] (S 13 19)])) [I S "fn" 13 1; I S "get_strct" 13 4; G S Parenth [] 13 13; O S "-" 13 16; O S ">" 13 17; I S "Result" 13 19; O S "<" 13 25; I S "Strct" 13 26; O S "," 13 31; G S Parenth [] 13 33; O S ">" 13 35]) (S 13 37) [(SExpr (ECall [] (EPath [] (mk_path false [mk_seg "Ok" [] (S 14 5)])) (S 14 7) [(EPath [] (mk_path false [mk_seg "Strct" [] (S 14 8)]))] []) None)]).
Definition args_walker_expr_method_call_0 : list meta := let S := at_ "<hooq_root>/tests/walker/expr/method_call.rs" in [].
Definition rec_walker_expr_method_call_0 : list string :=
  ["fn get_strct ( ) - > Result < Strct , ( ) > { Ok ( Strct ) }"].
Definition it_walker_expr_method_call_1 : item := let S := at_ "<hooq_root>/tests/walker/expr/method_call.rs" in
  (IFn [] [] (mk_sig "get_val" (RetPath (mk_path false [mk_seg "Result" [O S "<" 18 23; I S "usize" 18 24; O S "," 18 29; G S Parenth [] 18 31; O S ">" 18 33] (S 18 17)])) [I S "fn" 18 1; I S "get_val" 18 4; G S Parenth [] 18 11; O S "-" 18 14; O S ">" 18 15; I S "Result" 18 17; O S "<" 18 23; I S "usize" 18 24; O S "," 18 29; G S Parenth [] 18 31; O S ">" 18 33]) (S 18 35) [(SExpr (ECall [] (EPath [] (mk_path false [mk_seg "Ok" [] (S 19 5)])) (S 19 7) [(ELit [] (LOther "10") (S 19 8))] []) None)]).
Definition args_walker_expr_method_call_1 : list meta := let S := at_ "<hooq_root>/tests/walker/expr/method_call.rs" in [].
Definition rec_walker_expr_method_call_1 : list string :=
  ["fn get_val ( ) - > Result < usize , ( ) > { Ok ( 10 ) }"].
Definition it_walker_expr_method_call_2 : item := let S := at_ "<hooq_root>/tests/walker/expr/method_call.rs" in
  (IFn [mk_attr false (S 23 1) (MList (mk_path false [mk_seg "hooq" [] (S 23 3); mk_seg "method" [] (S 23 9)]) Parenth [O S "." 23 16; I S "inspect" 23 17; G S Parenth [O S "|" 23 25; I S "_" 23 26; O S "|" 23 27; G S Brace [I S "println" 24 5; O S "!" 24 12; G S Parenth [L S (LStr "tag: {}") 24 14; O S "," 24 23; O S "$" 24 25; I S "tag" 24 26] 24 13; O S ";" 24 30] 23 29] 23 24] (S 23 15)); mk_attr false (S 26 1) (MNameValue (mk_path false [mk_seg "hooq" [] (S 26 3); mk_seg "tag" [] (S 26 9)]) (VStr "(no tag)" (S 26 15)))] [] (mk_sig "func" (RetPath (mk_path false [mk_seg "Result" [O S "<" 27 20; G S Parenth [] 27 21; O S "," 27 23; G S Parenth [] 27 25; O S ">" 27 27] (S 27 14)])) [I S "fn" 27 1; I S "func" 27 4; G S Parenth [] 27 8; O S "-" 27 11; O S ">" 27 12; I S "Result" 27 14; O S "<" 27 20; G S Parenth [] 27 21; O S "," 27 23; G S Parenth [] 27 25; O S ">" 27 27]) (S 27 29) [(SExpr (ETry [] (EMethodCall [] (ETry [] (ECall [] (EPath [] (mk_path false [mk_seg "get_strct" [] (S 28 5)])) (S 28 14) [] []) (S 28 16)) [O S "." 28 17; I S "method" 28 18] (S 28 24) [(ETry [] (ECall [] (EPath [] (mk_path false [mk_seg "get_val" [] (S 28 25)])) (S 28 32) [] []) (S 28 34)); (ETry [] (ECall [] (EPath [] (mk_path false [mk_seg "get_val" [] (S 28 37)])) (S 28 44) [] []) (S 28 46))] [O S "," 28 35]) (S 28 48)) (Some (S 28 49))); (SExpr (ECall [] (EPath [] (mk_path false [mk_seg "Err" [] (S 30 5)])) (S 30 8) [(ETuple [] (S 30 9) [] [])] []) None)]).
Definition args_walker_expr_method_call_2 : list meta := let S := at_ "<hooq_root>/tests/walker/expr/method_call.rs" in [].
Definition rec_walker_expr_method_call_2 : list string :=
  ["fn func ( ) - > Result < ( ) , ( ) > { get_strct ( ) . inspect ( | _ | { { : : std : : io : : _print ( format_args ! ( ""tag:\s{0}\n"" , ""(no\stag)"" ) )";
   "; } ; } ) ? . method ( get_val ( ) . inspect ( | _ | { { : : std : : io : : _print ( format_args ! ( ""tag:\s{0}\n"" , ""(no\stag)"" ) ) ; } ; } ) ? ,";
   "get_val ( ) . inspect ( | _ | { { : : std : : io : : _print ( format_args ! ( ""tag:\s{0}\n"" , ""(no\stag)"" ) ) ; } ; } ) ? ) . inspect ( | _ | { { : :";
   "std : : io : : _print ( format_args ! ( ""tag:\s{0}\n"" , ""(no\stag)"" ) ) ; } ; } ) ? ; Err ( ( ) ) . inspect ( | _ | { { : : std : : io : : _print (";
   "format_args ! ( ""tag:\s{0}\n"" , ""(no\stag)"" ) ) ; } ; } ) }"].
(** get_strct *)
Example recorded_walker_expr_method_call_0 : expanded su_walker_expr_method_call args_walker_expr_method_call_0 it_walker_expr_method_call_0 = words rec_walker_expr_method_call_0.
Proof. vm_compute. reflexivity. Qed.
(** get_val *)
Example recorded_walker_expr_method_call_1 : expanded su_walker_expr_method_call args_walker_expr_method_call_1 it_walker_expr_method_call_1 = words rec_walker_expr_method_call_1.
Proof. vm_compute. reflexivity. Qed.
(** func *)
Example recorded_walker_expr_method_call_2 : expanded su_walker_expr_method_call args_walker_expr_method_call_2 it_walker_expr_method_call_2 = words rec_walker_expr_method_call_2.
Proof. vm_compute. reflexivity. Qed.
(** ** hooq-macros/tests/walker/expr/paren.rs *)
Definition doc_walker_expr_paren : list (string * ftable) := [].
Definition texts_walker_expr_paren : list (string * list tt) := let S := at_ "" in [].
Definition strs_walker_expr_paren : list (string * string) :=
  [("( no tag )", "(no tag)");
   ("tag : { 0 }", "tag: {0}
")].
Definition ends_walker_expr_paren : list (N * N * (N * N * string)) :=
  [(5, 2, (5, 8, "")); (6, 8, (6, 10, "")); (6, 26, (6, 28, "")); (6, 30, (8, 2, "")); (7, 7, (7, 11, "")); (10, 2, (10, 8, "")); (11, 2, (13, 5, "")); (11, 15, (13, 4, "")); (11, 24, (13, 3, "")); (11, 29, (13, 2, "")); (12, 13, (12, 30, "")); (12, 14, (12, 23, """tag: {}""")); (14, 2, (14, 26, "")); (14, 15, (14, 25, """(no tag)""")); (15, 2, (15, 39, "")); (15, 25, (15, 38, "")); (15, 26, (15, 30, """Ok""")); (15, 32, (15, 37, """Err""")); (16, 8, (16, 20, "")); (16, 31, (16, 33, "")); (16, 35, (16, 37, "")); (16, 39, (37, 2, "")); (17, 13, (33, 20, "")); (18, 11, (33, 19, "")); (18, 20, (18, 22, "")); (18, 26, (18, 35, "")); (18, 31, (18, 33, "")); (18, 42, (32, 10, "")); (19, 22, (21, 14, "")); (20, 27, (20, 31, "")); (20, 28, (20, 30, "")); (23, 27, (23, 29, "")); (23, 34, (31, 15, "")); (23, 35, (31, 14, "")); (24, 31, (24, 33, "")); (26, 26, (28, 18, "")); (27, 32, (27, 34, "")); (27, 38, (27, 46, "")); (27, 43, (27, 45, "")); (30, 21, (30, 23, "")); (33, 16, (33, 18, "")); (36, 8, (36, 12, "")); (36, 9, (36, 11, "")); (39, 2, (39, 8, "")); (40, 8, (40, 10, "")); (40, 11, (42, 2, "")); (41, 9, (41, 15, "")); (41, 26, (41, 28, ""))].
Definition su_walker_expr_paren : setup := mk_setup (mk_features false false true false false "hooq") doc_walker_expr_paren texts_walker_expr_paren strs_walker_expr_paren [] ends_walker_expr_paren "paren".
Definition it_walker_expr_paren_0 : item := let S := at_ "hooq-macros/tests/walker/expr/paren.rs" in
  (IFn [] [] (mk_sig "hoge" (RetPath (mk_path false [mk_seg "Result" [O S "<" 6 20; I S "u32" 6 21; O S "," 6 24; G S Parenth [] 6 26; O S ">" 6 28] (S 6 14)])) [I S "fn" 6 1; I S "hoge" 6 4; G S Parenth [] 6 8; O S "-" 6 11; O S ">" 6 12; I S "Result" 6 14; O S "<" 6 20; I S "u32" 6 21; O S "," 6 24; G S Parenth [] 6 26; O S ">" 6 28]) (S 6 30) [(SExpr (ECall [] (EPath [] (mk_path false [mk_seg "Ok" [] (S 7 5)])) (S 7 7) [(ELit [] (LOther "10") (S 7 8))] []) None)]).
Definition args_walker_expr_paren_0 : list meta := let S := at_ "hooq-macros/tests/walker/expr/paren.rs" in [].
Definition rec_walker_expr_paren_0 : list string :=
  ["fn hoge ( ) - > Result < u32 , ( ) > { Ok ( 10 ) }"].
Definition it_walker_expr_paren_1 : item := let S := at_ "hooq-macros/tests/walker/expr/paren.rs" in
  (IFn [mk_attr false (S 11 1) (MList (mk_path false [mk_seg "hooq" [] (S 11 3); mk_seg "method" [] (S 11 9)]) Parenth [O S "." 11 16; I S "inspect" 11 17; G S Parenth [O S "|" 11 25; I S "_" 11 26; O S "|" 11 27; G S Brace [I S "println" 12 5; O S "!" 12 12; G S Parenth [L S (LStr "tag: {}") 12 14; O S "," 12 23; O S "$" 12 25; I S "tag" 12 26] 12 13; O S ";" 12 30] 11 29] 11 24] (S 11 15)); mk_attr false (S 14 1) (MNameValue (mk_path false [mk_seg "hooq" [] (S 14 3); mk_seg "tag" [] (S 14 9)]) (VStr "(no tag)" (S 14 15))); mk_attr false (S 15 1) (MList (mk_path false [mk_seg "hooq" [] (S 15 3); mk_seg "tail_expr_idents" [] (S 15 9)]) Parenth [L S (LStr "Ok") 15 26; O S "," 15 30; L S (LStr "Err") 15 32] (S 15 25))] [] (mk_sig "func" (RetPath (mk_path false [mk_seg "Result" [O S "<" 16 30; G S Parenth [] 16 31; O S "," 16 33; G S Parenth [] 16 35; O S ">" 16 37] (S 16 24)])) [I S "fn" 16 1; I S "func" 16 4; G S Parenth [I S "flag" 16 9; O S ":" 16 13; I S "bool" 16 15] 16 8; O S "-" 16 21; O S ">" 16 22; I S "Result" 16 24; O S "<" 16 30; G S Parenth [] 16 31; O S "," 16 33; G S Parenth [] 16 35; O S ">" 16 37]) (S 16 39) [(SLocalInit [] [I S "let" 17 5; I S "_" 17 9; O S "=" 17 11] (EBinary [] (EParen [] (S 17 13) (EBinary [] (ELit [] (LOther "2") (S 17 14)) [O S "*" 18 9] (EParen [] (S 18 11) (EBinary [] (EBinary [] (EBinary [] (EBinary [] (ELit [] (LOther "3") (S 18 12)) [O S "*" 18 14] (ETry [] (ECall [] (EPath [] (mk_path false [mk_seg "hoge" [] (S 18 16)])) (S 18 20) [] []) (S 18 22))) [O S "*" 18 24] (EParen [] (S 18 26) (ETry [] (ECall [] (EPath [] (mk_path false [mk_seg "hoge" [] (S 18 27)])) (S 18 31) [] []) (S 18 33)))) [O S "*" 18 36] (ELit [] (LOther "5") (S 18 38))) [O S "*" 18 40] (EMethodCall [] (EBlock [] [] (S 18 42) [(SExpr (EIf [] [I S "if" 19 13] (EUnary [] [O S "!" 19 16] (EPath [] (mk_path false [mk_seg "flag" [] (S 19 17)]))) (S 19 22) [(SExpr (EReturn [] (S 20 17) (Some (ECall [] (EPath [] (mk_path false [mk_seg "Err" [] (S 20 24)])) (S 20 27) [(ETuple [] (S 20 28) [] [])] []))) (Some (S 20 31)))] [] None) None); (SExpr (ECall [] (EPath [] (mk_path false [mk_seg "Result" [O S ":" 23 19; O S ":" 23 20; O S "<" 23 21; I S "u32" 23 22; O S "," 23 25; G S Parenth [] 23 27; O S ">" 23 29] (S 23 13); mk_seg "Ok" [] (S 23 32)])) (S 23 34) [(EBlock [] [] (S 23 35) [(SLocalInit [] [I S "let" 24 17; I S "tmp" 24 21; O S "=" 24 25] (ETry [] (ECall [] (EPath [] (mk_path false [mk_seg "hoge" [] (S 24 27)])) (S 24 31) [] []) (S 24 33)) [] None [O S ";" 24 34]); (SExpr (EIf [] [I S "if" 26 17] (EUnary [] [O S "!" 26 20] (EPath [] (mk_path false [mk_seg "flag" [] (S 26 21)]))) (S 26 26) [(SExpr (EReturn [] (S 27 21) (Some (EMethodCall [] (ECall [] (EPath [] (mk_path false [mk_seg "hoge" [] (S 27 28)])) (S 27 32) [] []) [O S "." 27 34; I S "map" 27 35] (S 27 38) [(EClosure [] [O S "|" 27 39; I S "_" 27 40; O S "|" 27 41] RetNone (ETuple [] (S 27 43) [] []))] []))) (Some (S 27 46)))] [] None) None); (SExpr (EBinary [] (ETry [] (ECall [] (EPath [] (mk_path false [mk_seg "hoge" [] (S 30 17)])) (S 30 21) [] []) (S 30 23)) [O S "+" 30 25] (EPath [] (mk_path false [mk_seg "tmp" [] (S 30 27)]))) None)])] []) None)]) [O S "." 33 9; I S "unwrap" 33 10] (S 33 16) [] []))))) [O S "*" 34 9] (ELit [] (LOther "6") (S 34 11))) [] None [O S ";" 34 12]); (SExpr (ECall [] (EPath [] (mk_path false [mk_seg "Err" [] (S 36 5)])) (S 36 8) [(ETuple [] (S 36 9) [] [])] []) None)]).
Definition args_walker_expr_paren_1 : list meta := let S := at_ "hooq-macros/tests/walker/expr/paren.rs" in [].
Definition rec_walker_expr_paren_1 : list string :=
  ["fn func ( flag : bool ) - > Result < ( ) , ( ) > { let _ = ( 2 * ( 3 * hoge ( ) . inspect ( | _ | { { : : std : : io : : _print ( format_args ! (";
   """tag:\s{0}\n"" , ""(no\stag)"" ) ) ; } ; } ) ? * ( hoge ( ) . inspect ( | _ | { { : : std : : io : : _print ( format_args ! ( ""tag:\s{0}\n"" , ""(no\stag)""";
   ") ) ; } ; } ) ? ) * 5 * { if ! flag { return Err ( ( ) ) . inspect ( | _ | { { : : std : : io : : _print ( format_args ! ( ""tag:\s{0}\n"" , ""(no\stag)""";
   ") ) ; } ; } ) ; } Result : : < u32 , ( ) > : : Ok ( { let tmp = hoge ( ) . inspect ( | _ | { { : : std : : io : : _print ( format_args ! (";
   """tag:\s{0}\n"" , ""(no\stag)"" ) ) ; } ; } ) ? ; if ! flag { return hoge ( ) . map ( | _ | ( ) ) . inspect ( | _ | { { : : std : : io : : _print (";
   "format_args ! ( ""tag:\s{0}\n"" , ""(no\stag)"" ) ) ; } ; } ) ; } hoge ( ) . inspect ( | _ | { { : : std : : io : : _print ( format_args ! ( ""tag:\s{0}\n""";
   ", ""(no\stag)"" ) ) ; } ; } ) ? + tmp } ) . inspect ( | _ | { { : : std : : io : : _print ( format_args ! ( ""tag:\s{0}\n"" , ""(no\stag)"" ) ) ; } ; } ) }";
   ". unwrap ( ) ) ) * 6 ; Err ( ( ) ) . inspect ( | _ | { { : : std : : io : : _print ( format_args ! ( ""tag:\s{0}\n"" , ""(no\stag)"" ) ) ; } ; } ) }"].
(** hoge *)
Example recorded_walker_expr_paren_0 : expanded su_walker_expr_paren args_walker_expr_paren_0 it_walker_expr_paren_0 = words rec_walker_expr_paren_0.
Proof. vm_compute. reflexivity. Qed.
(** func *)
Example recorded_walker_expr_paren_1 : expanded su_walker_expr_paren args_walker_expr_paren_1 it_walker_expr_paren_1 = words rec_walker_expr_paren_1.
Proof. vm_compute. reflexivity. Qed.
(** ** hooq-macros/tests/walker/expr/range.rs *)
Definition doc_walker_expr_range : list (string * ftable) := [].
Definition texts_walker_expr_range : list (string * list tt) := let S := at_ "" in [].
Definition strs_walker_expr_range : list (string * string) :=
  [("( no tag )", "(no tag)");
   ("tag : { 0 }", "tag: {0}
")].
Definition ends_walker_expr_range : list (N * N * (N * N * string)) :=
  [(3, 2, (3, 8, "")); (4, 9, (4, 19, "")); (4, 37, (4, 39, "")); (4, 41, (6, 2, "")); (5, 7, (5, 10, "")); (8, 2, (8, 8, "")); (9, 2, (11, 5, "")); (9, 15, (11, 4, "")); (9, 24, (11, 3, "")); (9, 29, (11, 2, "")); (10, 13, (10, 30, "")); (10, 14, (10, 23, """tag: {}""")); (12, 2, (12, 26, "")); (12, 15, (12, 25, """(no tag)""")); (13, 8, (13, 10, "")); (13, 21, (13, 23, "")); (13, 25, (13, 27, "")); (13, 29, (21, 2, "")); (14, 18, (14, 21, "")); (14, 29, (14, 33, "")); (15, 18, (15, 21, "")); (15, 30, (15, 34, "")); (16, 18, (16, 21, "")); (17, 20, (17, 24, "")); (18, 21, (18, 25, "")); (20, 8, (20, 12, "")); (20, 9, (20, 11, "")); (23, 2, (23, 8, "")); (24, 8, (24, 10, "")); (24, 11, (26, 2, "")); (25, 9, (25, 11, "")); (25, 22, (25, 24, ""))].
Definition su_walker_expr_range : setup := mk_setup (mk_features false false true false false "hooq") doc_walker_expr_range texts_walker_expr_range strs_walker_expr_range [] ends_walker_expr_range "range".
Definition it_walker_expr_range_0 : item := let S := at_ "hooq-macros/tests/walker/expr/range.rs" in
  (IFn [] [] (mk_sig "index" (RetPath (mk_path false [mk_seg "Result" [O S "<" 4 29; I S "usize" 4 30; O S "," 4 35; G S Parenth [] 4 37; O S ">" 4 39] (S 4 23)])) [I S "fn" 4 1; I S "index" 4 4; G S Parenth [I S "i" 4 10; O S ":" 4 11; I S "usize" 4 13] 4 9; O S "-" 4 20; O S ">" 4 21; I S "Result" 4 23; O S "<" 4 29; I S "usize" 4 30; O S "," 4 35; G S Parenth [] 4 37; O S ">" 4 39]) (S 4 41) [(SExpr (ECall [] (EPath [] (mk_path false [mk_seg "Ok" [] (S 5 5)])) (S 5 7) [(EPath [] (mk_path false [mk_seg "i" [] (S 5 8)]))] []) None)]).
Definition args_walker_expr_range_0 : list meta := let S := at_ "hooq-macros/tests/walker/expr/range.rs" in [].
Definition rec_walker_expr_range_0 : list string :=
  ["fn index ( i : usize ) - > Result < usize , ( ) > { Ok ( i ) }"].
Definition it_walker_expr_range_1 : item := let S := at_ "hooq-macros/tests/walker/expr/range.rs" in
  (IFn [mk_attr false (S 9 1) (MList (mk_path false [mk_seg "hooq" [] (S 9 3); mk_seg "method" [] (S 9 9)]) Parenth [O S "." 9 16; I S "inspect" 9 17; G S Parenth [O S "|" 9 25; I S "_" 9 26; O S "|" 9 27; G S Brace [I S "println" 10 5; O S "!" 10 12; G S Parenth [L S (LStr "tag: {}") 10 14; O S "," 10 23; O S "$" 10 25; I S "tag" 10 26] 10 13; O S ";" 10 30] 9 29] 9 24] (S 9 15)); mk_attr false (S 12 1) (MNameValue (mk_path false [mk_seg "hooq" [] (S 12 3); mk_seg "tag" [] (S 12 9)]) (VStr "(no tag)" (S 12 15)))] [] (mk_sig "func" (RetPath (mk_path false [mk_seg "Result" [O S "<" 13 20; G S Parenth [] 13 21; O S "," 13 23; G S Parenth [] 13 25; O S ">" 13 27] (S 13 14)])) [I S "fn" 13 1; I S "func" 13 4; G S Parenth [] 13 8; O S "-" 13 11; O S ">" 13 12; I S "Result" 13 14; O S "<" 13 20; G S Parenth [] 13 21; O S "," 13 23; G S Parenth [] 13 25; O S ">" 13 27]) (S 13 29) [(SLocalInit [] [I S "let" 14 5; I S "_" 14 9; O S "=" 14 11] (ERange [] (Some (ETry [] (ECall [] (EPath [] (mk_path false [mk_seg "index" [] (S 14 13)])) (S 14 18) [(ELit [] (LOther "0") (S 14 19))] []) (S 14 21))) [O S "." 14 22; O S "." 14 23] (Some (ETry [] (ECall [] (EPath [] (mk_path false [mk_seg "index" [] (S 14 24)])) (S 14 29) [(ELit [] (LOther "10") (S 14 30))] []) (S 14 33)))) [] None [O S ";" 14 34]); (SLocalInit [] [I S "let" 15 5; I S "_" 15 9; O S "=" 15 11] (ERange [] (Some (ETry [] (ECall [] (EPath [] (mk_path false [mk_seg "index" [] (S 15 13)])) (S 15 18) [(ELit [] (LOther "0") (S 15 19))] []) (S 15 21))) [O S "." 15 22; O S "." 15 23; O S "=" 15 24] (Some (ETry [] (ECall [] (EPath [] (mk_path false [mk_seg "index" [] (S 15 25)])) (S 15 30) [(ELit [] (LOther "10") (S 15 31))] []) (S 15 34)))) [] None [O S ";" 15 35]); (SLocalInit [] [I S "let" 16 5; I S "_" 16 9; O S "=" 16 11] (ERange [] (Some (ETry [] (ECall [] (EPath [] (mk_path false [mk_seg "index" [] (S 16 13)])) (S 16 18) [(ELit [] (LOther "0") (S 16 19))] []) (S 16 21))) [O S "." 16 22; O S "." 16 23] None) [] None [O S ";" 16 24]); (SLocalInit [] [I S "let" 17 5; I S "_" 17 9; O S "=" 17 11] (ERange [] None [O S "." 17 13; O S "." 17 14] (Some (ETry [] (ECall [] (EPath [] (mk_path false [mk_seg "index" [] (S 17 15)])) (S 17 20) [(ELit [] (LOther "10") (S 17 21))] []) (S 17 24)))) [] None [O S ";" 17 25]); (SLocalInit [] [I S "let" 18 5; I S "_" 18 9; O S "=" 18 11] (ERange [] None [O S "." 18 13; O S "." 18 14; O S "=" 18 15] (Some (ETry [] (ECall [] (EPath [] (mk_path false [mk_seg "index" [] (S 18 16)])) (S 18 21) [(ELit [] (LOther "10") (S 18 22))] []) (S 18 25)))) [] None [O S ";" 18 26]); (SExpr (ECall [] (EPath [] (mk_path false [mk_seg "Err" [] (S 20 5)])) (S 20 8) [(ETuple [] (S 20 9) [] [])] []) None)]).
Definition args_walker_expr_range_1 : list meta := let S := at_ "hooq-macros/tests/walker/expr/range.rs" in [].
Definition rec_walker_expr_range_1 : list string :=
  ["fn func ( ) - > Result < ( ) , ( ) > { let _ = index ( 0 ) . inspect ( | _ | { { : : std : : io : : _print ( format_args ! ( ""tag:\s{0}\n"" ,";
   """(no\stag)"" ) ) ; } ; } ) ? . . index ( 10 ) . inspect ( | _ | { { : : std : : io : : _print ( format_args ! ( ""tag:\s{0}\n"" , ""(no\stag)"" ) ) ; } ; }";
   ") ? ; let _ = index ( 0 ) . inspect ( | _ | { { : : std : : io : : _print ( format_args ! ( ""tag:\s{0}\n"" , ""(no\stag)"" ) ) ; } ; } ) ? . . = index (";
   "10 ) . inspect ( | _ | { { : : std : : io : : _print ( format_args ! ( ""tag:\s{0}\n"" , ""(no\stag)"" ) ) ; } ; } ) ? ; let _ = index ( 0 ) . inspect ( |";
   "_ | { { : : std : : io : : _print ( format_args ! ( ""tag:\s{0}\n"" , ""(no\stag)"" ) ) ; } ; } ) ? . . ; let _ = . . index ( 10 ) . inspect ( | _ | { { :";
   ": std : : io : : _print ( format_args ! ( ""tag:\s{0}\n"" , ""(no\stag)"" ) ) ; } ; } ) ? ; let _ = . . = index ( 10 ) . inspect ( | _ | { { : : std : :";
   "io : : _print ( format_args ! ( ""tag:\s{0}\n"" , ""(no\stag)"" ) ) ; } ; } ) ? ; Err ( ( ) ) . inspect ( | _ | { { : : std : : io : : _print (";
   "format_args ! ( ""tag:\s{0}\n"" , ""(no\stag)"" ) ) ; } ; } ) }"].
(** index *)
Example recorded_walker_expr_range_0 : expanded su_walker_expr_range args_walker_expr_range_0 it_walker_expr_range_0 = words rec_walker_expr_range_0.
Proof. vm_compute. reflexivity. Qed.
(** func *)
Example recorded_walker_expr_range_1 : expanded su_walker_expr_range args_walker_expr_range_1 it_walker_expr_range_1 = words rec_walker_expr_range_1.
Proof. vm_compute. reflexivity. Qed.
(** ** hooq-macros/tests/walker/expr/repeat.rs *)
Definition doc_walker_expr_repeat : list (string * ftable) := [].
Definition texts_walker_expr_repeat : list (string * list tt) := let S := at_ "" in [].
Definition strs_walker_expr_repeat : list (string * string) :=
  [("( no tag )", "(no tag)");
   ("tag : { 0 }", "tag: {0}
")].
Definition ends_walker_expr_repeat : list (N * N * (N * N * string)) :=
  [(3, 2, (3, 8, "")); (4, 8, (4, 10, "")); (4, 28, (4, 30, "")); (4, 32, (6, 2, "")); (5, 7, (5, 10, "")); (8, 2, (8, 8, "")); (9, 2, (11, 5, "")); (9, 15, (11, 4, "")); (9, 24, (11, 3, "")); (9, 29, (11, 2, "")); (10, 13, (10, 30, "")); (10, 14, (10, 23, """tag: {}""")); (12, 2, (12, 26, "")); (12, 15, (12, 25, """(no tag)""")); (13, 8, (13, 10, "")); (13, 21, (13, 23, "")); (13, 25, (13, 27, "")); (13, 29, (25, 2, "")); (14, 13, (22, 7, "")); (14, 18, (14, 20, "")); (14, 23, (22, 6, "")); (15, 14, (15, 16, "")); (15, 27, (15, 29, "")); (15, 31, (15, 33, "")); (15, 35, (19, 10, "")); (16, 17, (16, 19, "")); (18, 16, (18, 20, "")); (18, 17, (18, 19, "")); (24, 8, (24, 12, "")); (24, 9, (24, 11, "")); (27, 2, (27, 8, "")); (28, 8, (28, 10, "")); (28, 11, (30, 2, "")); (29, 9, (29, 11, "")); (29, 22, (29, 24, ""))].
Definition su_walker_expr_repeat : setup := mk_setup (mk_features false false true false false "hooq") doc_walker_expr_repeat texts_walker_expr_repeat strs_walker_expr_repeat [] ends_walker_expr_repeat "repeat".
Definition it_walker_expr_repeat_0 : item := let S := at_ "hooq-macros/tests/walker/expr/repeat.rs" in
  (IFn [] [] (mk_sig "hoge" (RetPath (mk_path false [mk_seg "Result" [O S "<" 4 20; I S "usize" 4 21; O S "," 4 26; G S Parenth [] 4 28; O S ">" 4 30] (S 4 14)])) [I S "fn" 4 1; I S "hoge" 4 4; G S Parenth [] 4 8; O S "-" 4 11; O S ">" 4 12; I S "Result" 4 14; O S "<" 4 20; I S "usize" 4 21; O S "," 4 26; G S Parenth [] 4 28; O S ">" 4 30]) (S 4 32) [(SExpr (ECall [] (EPath [] (mk_path false [mk_seg "Ok" [] (S 5 5)])) (S 5 7) [(ELit [] (LOther "5") (S 5 8))] []) None)]).
Definition args_walker_expr_repeat_0 : list meta := let S := at_ "hooq-macros/tests/walker/expr/repeat.rs" in [].
Definition rec_walker_expr_repeat_0 : list string :=
  ["fn hoge ( ) - > Result < usize , ( ) > { Ok ( 5 ) }"].
Definition it_walker_expr_repeat_1 : item := let S := at_ "hooq-macros/tests/walker/expr/repeat.rs" in
  (IFn [mk_attr false (S 9 1) (MList (mk_path false [mk_seg "hooq" [] (S 9 3); mk_seg "method" [] (S 9 9)]) Parenth [O S "." 9 16; I S "inspect" 9 17; G S Parenth [O S "|" 9 25; I S "_" 9 26; O S "|" 9 27; G S Brace [I S "println" 10 5; O S "!" 10 12; G S Parenth [L S (LStr "tag: {}") 10 14; O S "," 10 23; O S "$" 10 25; I S "tag" 10 26] 10 13; O S ";" 10 30] 9 29] 9 24] (S 9 15)); mk_attr false (S 12 1) (MNameValue (mk_path false [mk_seg "hooq" [] (S 12 3); mk_seg "tag" [] (S 12 9)]) (VStr "(no tag)" (S 12 15)))] [] (mk_sig "func" (RetPath (mk_path false [mk_seg "Result" [O S "<" 13 20; G S Parenth [] 13 21; O S "," 13 23; G S Parenth [] 13 25; O S ">" 13 27] (S 13 14)])) [I S "fn" 13 1; I S "func" 13 4; G S Parenth [] 13 8; O S "-" 13 11; O S ">" 13 12; I S "Result" 13 14; O S "<" 13 20; G S Parenth [] 13 21; O S "," 13 23; G S Parenth [] 13 25; O S ">" 13 27]) (S 13 29) [(SLocalInit [] [I S "let" 14 5; I S "_" 14 9; O S "=" 14 11] (ERepeat [] (S 14 13) (ETry [] (ECall [] (EPath [] (mk_path false [mk_seg "hoge" [] (S 14 14)])) (S 14 18) [] []) (S 14 20)) [O S ";" 14 21] (EBlock [] [] (S 14 23) [(SItem (IFn [] [] (mk_sig "_f" (RetPath (mk_path false [mk_seg "Result" [O S "<" 15 26; G S Parenth [] 15 27; O S "," 15 29; G S Parenth [] 15 31; O S ">" 15 33] (S 15 20)])) [I S "fn" 15 9; I S "_f" 15 12; G S Parenth [] 15 14; O S "-" 15 17; O S ">" 15 18; I S "Result" 15 20; O S "<" 15 26; G S Parenth [] 15 27; O S "," 15 29; G S Parenth [] 15 31; O S ">" 15 33]) (S 15 35) [(SExpr (ETry [] (ECall [] (EPath [] (mk_path false [mk_seg "hoge" [] (S 16 13)])) (S 16 17) [] []) (S 16 19)) (Some (S 16 20))); (SExpr (ECall [] (EPath [] (mk_path false [mk_seg "Err" [] (S 18 13)])) (S 18 16) [(ETuple [] (S 18 17) [] [])] []) None)])); (SExpr (ELit [] (LOther "5") (S 21 9)) None)])) [] None [O S ";" 22 7]); (SExpr (ECall [] (EPath [] (mk_path false [mk_seg "Err" [] (S 24 5)])) (S 24 8) [(ETuple [] (S 24 9) [] [])] []) None)]).
Definition args_walker_expr_repeat_1 : list meta := let S := at_ "hooq-macros/tests/walker/expr/repeat.rs" in [].
Definition rec_walker_expr_repeat_1 : list string :=
  ["fn func ( ) - > Result < ( ) , ( ) > { let _ = [ hoge ( ) . inspect ( | _ | { { : : std : : io : : _print ( format_args ! ( ""tag:\s{0}\n"" ,";
   """(no\stag)"" ) ) ; } ; } ) ? ; { fn _f ( ) - > Result < ( ) , ( ) > { hoge ( ) . inspect ( | _ | { { : : std : : io : : _print ( format_args ! (";
   """tag:\s{0}\n"" , ""(no\stag)"" ) ) ; } ; } ) ? ; Err ( ( ) ) . inspect ( | _ | { { : : std : : io : : _print ( format_args ! ( ""tag:\s{0}\n"" ,";
   """(no\stag)"" ) ) ; } ; } ) } 5 } ] ; Err ( ( ) ) . inspect ( | _ | { { : : std : : io : : _print ( format_args ! ( ""tag:\s{0}\n"" , ""(no\stag)"" ) ) ; }";
   "; } ) }"].
(** hoge *)
Example recorded_walker_expr_repeat_0 : expanded su_walker_expr_repeat args_walker_expr_repeat_0 it_walker_expr_repeat_0 = words rec_walker_expr_repeat_0.
Proof. vm_compute. reflexivity. Qed.
(** func *)
Example recorded_walker_expr_repeat_1 : expanded su_walker_expr_repeat args_walker_expr_repeat_1 it_walker_expr_repeat_1 = words rec_walker_expr_repeat_1.
Proof. vm_compute. reflexivity. Qed.
(** ** hooq-macros/tests/walker/expr/return.rs *)
Definition doc_walker_expr_return : list (string * ftable) := [].
Definition texts_walker_expr_return : list (string * list tt) := let S := at_ "" in [].
Definition strs_walker_expr_return : list (string * string) :=
  [("( no tag )", "(no tag)");
   ("tag : { 0 }", "tag: {0}
")].
Definition ends_walker_expr_return : list (N * N * (N * N * string)) :=
  [(3, 2, (3, 8, "")); (4, 2, (6, 5, "")); (4, 15, (6, 4, "")); (4, 24, (6, 3, "")); (4, 29, (6, 2, "")); (5, 13, (5, 30, "")); (5, 14, (5, 23, """tag: {}""")); (7, 2, (7, 26, "")); (7, 15, (7, 25, """(no tag)""")); (8, 8, (8, 20, "")); (8, 31, (8, 33, "")); (8, 35, (8, 37, "")); (8, 39, (25, 2, "")); (9, 6, (9, 28, "")); (9, 19, (9, 27, """return""")); (10, 13, (12, 6, "")); (11, 19, (11, 23, "")); (11, 20, (11, 22, "")); (14, 6, (14, 32, "")); (14, 19, (14, 31, """not result""")); (15, 12, (15, 24, "")); (15, 32, (20, 6, "")); (16, 17, (18, 10, "")); (22, 17, (22, 23, "")); (24, 8, (24, 12, "")); (24, 9, (24, 11, "")); (27, 2, (27, 8, "")); (28, 8, (28, 10, "")); (28, 11, (30, 2, "")); (29, 9, (29, 15, "")); (29, 26, (29, 28, ""))].
Definition su_walker_expr_return : setup := mk_setup (mk_features false false true false false "hooq") doc_walker_expr_return texts_walker_expr_return strs_walker_expr_return [] ends_walker_expr_return "return".
Definition it_walker_expr_return_0 : item := let S := at_ "hooq-macros/tests/walker/expr/return.rs" in
  (IFn [mk_attr false (S 4 1) (MList (mk_path false [mk_seg "hooq" [] (S 4 3); mk_seg "method" [] (S 4 9)]) Parenth [O S "." 4 16; I S "inspect" 4 17; G S Parenth [O S "|" 4 25; I S "_" 4 26; O S "|" 4 27; G S Brace [I S "println" 5 5; O S "!" 5 12; G S Parenth [L S (LStr "tag: {}") 5 14; O S "," 5 23; O S "$" 5 25; I S "tag" 5 26] 5 13; O S ";" 5 30] 4 29] 4 24] (S 4 15)); mk_attr false (S 7 1) (MNameValue (mk_path false [mk_seg "hooq" [] (S 7 3); mk_seg "tag" [] (S 7 9)]) (VStr "(no tag)" (S 7 15)))] [] (mk_sig "func" (RetPath (mk_path false [mk_seg "Result" [O S "<" 8 30; G S Parenth [] 8 31; O S "," 8 33; G S Parenth [] 8 35; O S ">" 8 37] (S 8 24)])) [I S "fn" 8 1; I S "func" 8 4; G S Parenth [I S "flag" 8 9; O S ":" 8 13; I S "bool" 8 15] 8 8; O S "-" 8 21; O S ">" 8 22; I S "Result" 8 24; O S "<" 8 30; G S Parenth [] 8 31; O S "," 8 33; G S Parenth [] 8 35; O S ">" 8 37]) (S 8 39) [(SExpr (EIf [mk_attr false (S 9 5) (MNameValue (mk_path false [mk_seg "hooq" [] (S 9 7); mk_seg "tag" [] (S 9 13)]) (VStr "return" (S 9 19)))] [I S "if" 10 5] (EPath [] (mk_path false [mk_seg "flag" [] (S 10 8)])) (S 10 13) [(SExpr (EReturn [] (S 11 9) (Some (ECall [] (EPath [] (mk_path false [mk_seg "Err" [] (S 11 16)])) (S 11 19) [(ETuple [] (S 11 20) [] [])] []))) (Some (S 11 23)))] [] None) None); (SItem (IFn [mk_attr false (S 14 5) (MNameValue (mk_path false [mk_seg "hooq" [] (S 14 7); mk_seg "tag" [] (S 14 13)]) (VStr "not result" (S 14 19)))] [] (mk_sig "hoge" (RetPath (mk_path false [mk_seg "u32" [] (S 15 28)])) [I S "fn" 15 5; I S "hoge" 15 8; G S Parenth [I S "flag" 15 13; O S ":" 15 17; I S "bool" 15 19] 15 12; O S "-" 15 25; O S ">" 15 26; I S "u32" 15 28]) (S 15 32) [(SExpr (EIf [] [I S "if" 16 9] (EPath [] (mk_path false [mk_seg "flag" [] (S 16 12)])) (S 16 17) [(SExpr (EReturn [] (S 17 13) (Some (ELit [] (LOther "1") (S 17 20)))) (Some (S 17 21)))] [] None) None); (SExpr (ELit [] (LOther "0") (S 19 9)) None)])); (SLocalInit [] [I S "let" 22 5; I S "_" 22 9; O S "=" 22 11] (ECall [] (EPath [] (mk_path false [mk_seg "hoge" [] (S 22 13)])) (S 22 17) [(EPath [] (mk_path false [mk_seg "flag" [] (S 22 18)]))] []) [] None [O S ";" 22 23]); (SExpr (ECall [] (EPath [] (mk_path false [mk_seg "Err" [] (S 24 5)])) (S 24 8) [(ETuple [] (S 24 9) [] [])] []) None)]).
Definition args_walker_expr_return_0 : list meta := let S := at_ "hooq-macros/tests/walker/expr/return.rs" in [].
Definition rec_walker_expr_return_0 : list string :=
  ["fn func ( flag : bool ) - > Result < ( ) , ( ) > { if flag { return Err ( ( ) ) . inspect ( | _ | { { : : std : : io : : _print ( format_args ! (";
   """tag:\s{0}\n"" , ""return"" ) ) ; } ; } ) ; } fn hoge ( flag : bool ) - > u32 { if flag { return 1 ; } 0 } let _ = hoge ( flag ) ; Err ( ( ) ) . inspect";
   "( | _ | { { : : std : : io : : _print ( format_args ! ( ""tag:\s{0}\n"" , ""(no\stag)"" ) ) ; } ; } ) }"].
(** func *)
Example recorded_walker_expr_return_0 : expanded su_walker_expr_return args_walker_expr_return_0 it_walker_expr_return_0 = words rec_walker_expr_return_0.
Proof. vm_compute. reflexivity. Qed.
(** ** hooq-macros/tests/walker/expr/struct.rs *)
Definition doc_walker_expr_struct : list (string * ftable) := [].
Definition texts_walker_expr_struct : list (string * list tt) := let S := at_ "" in [].
Definition strs_walker_expr_struct : list (string * string) :=
  [("( no tag )", "(no tag)");
   ("tag : { 0 }", "tag: {0}
")].
Definition ends_walker_expr_struct : list (N * N * (N * N * string)) :=
  [(3, 2, (3, 17, "")); (3, 8, (3, 16, "")); (4, 14, (6, 2, "")); (8, 2, (8, 17, "")); (8, 8, (8, 16, "")); (9, 10, (12, 2, "")); (10, 14, (10, 28, "")); (14, 2, (14, 17, "")); (14, 8, (14, 16, "")); (15, 12, (18, 2, "")); (20, 2, (20, 8, "")); (21, 8, (21, 10, "")); (21, 26, (21, 28, "")); (21, 30, (23, 2, "")); (22, 7, (22, 11, "")); (25, 2, (25, 8, "")); (26, 2, (28, 5, "")); (26, 15, (28, 4, "")); (26, 24, (28, 3, "")); (26, 29, (28, 2, "")); (27, 13, (27, 30, "")); (27, 14, (27, 23, """tag: {}""")); (29, 2, (29, 26, "")); (29, 15, (29, 25, """(no tag)""")); (30, 8, (30, 10, "")); (30, 21, (30, 23, "")); (30, 25, (30, 27, "")); (30, 29, (50, 2, "")); (31, 19, (31, 37, "")); (31, 32, (31, 34, "")); (33, 19, (43, 6, "")); (34, 10, (34, 31, "")); (34, 23, (34, 30, """field""")); (35, 16, (42, 10, "")); (36, 20, (36, 22, "")); (36, 30, (39, 14, "")); (37, 18, (37, 47, "")); (37, 31, (37, 46, """in field expr""")); (38, 27, (38, 31, "")); (38, 28, (38, 30, "")); (41, 17, (41, 19, "")); (45, 27, (45, 45, "")); (45, 40, (45, 42, "")); (47, 18, (47, 37, "")); (47, 32, (47, 34, "")); (49, 8, (49, 12, "")); (49, 9, (49, 11, "")); (52, 2, (52, 8, "")); (53, 8, (53, 10, "")); (53, 11, (55, 2, "")); (54, 9, (54, 11, "")); (54, 22, (54, 24, ""))].
Definition su_walker_expr_struct : setup := mk_setup (mk_features false false true false false "hooq") doc_walker_expr_struct texts_walker_expr_struct strs_walker_expr_struct [] ends_walker_expr_struct "struct".
Definition it_walker_expr_struct_0 : item := let S := at_ "hooq-macros/tests/walker/expr/struct.rs" in
  (IFn [] [] (mk_sig "hoge" (RetPath (mk_path false [mk_seg "Result" [O S "<" 21 20; I S "u32" 21 21; O S "," 21 24; G S Parenth [] 21 26; O S ">" 21 28] (S 21 14)])) [I S "fn" 21 1; I S "hoge" 21 4; G S Parenth [] 21 8; O S "-" 21 11; O S ">" 21 12; I S "Result" 21 14; O S "<" 21 20; I S "u32" 21 21; O S "," 21 24; G S Parenth [] 21 26; O S ">" 21 28]) (S 21 30) [(SExpr (ECall [] (EPath [] (mk_path false [mk_seg "Ok" [] (S 22 5)])) (S 22 7) [(ELit [] (LOther "10") (S 22 8))] []) None)]).
Definition args_walker_expr_struct_0 : list meta := let S := at_ "hooq-macros/tests/walker/expr/struct.rs" in [].
Definition rec_walker_expr_struct_0 : list string :=
  ["fn hoge ( ) - > Result < u32 , ( ) > { Ok ( 10 ) }"].
Definition it_walker_expr_struct_1 : item := let S := at_ "hooq-macros/tests/walker/expr/struct.rs" in
  (IFn [mk_attr false (S 26 1) (MList (mk_path false [mk_seg "hooq" [] (S 26 3); mk_seg "method" [] (S 26 9)]) Parenth [O S "." 26 16; I S "inspect" 26 17; G S Parenth [O S "|" 26 25; I S "_" 26 26; O S "|" 26 27; G S Brace [I S "println" 27 5; O S "!" 27 12; G S Parenth [L S (LStr "tag: {}") 27 14; O S "," 27 23; O S "$" 27 25; I S "tag" 27 26] 27 13; O S ";" 27 30] 26 29] 26 24] (S 26 15)); mk_attr false (S 29 1) (MNameValue (mk_path false [mk_seg "hooq" [] (S 29 3); mk_seg "tag" [] (S 29 9)]) (VStr "(no tag)" (S 29 15)))] [] (mk_sig "func" (RetPath (mk_path false [mk_seg "Result" [O S "<" 30 20; G S Parenth [] 30 21; O S "," 30 23; G S Parenth [] 30 25; O S ">" 30 27] (S 30 14)])) [I S "fn" 30 1; I S "func" 30 4; G S Parenth [] 30 8; O S "-" 30 11; O S ">" 30 12; I S "Result" 30 14; O S "<" 30 20; G S Parenth [] 30 21; O S "," 30 23; G S Parenth [] 30 25; O S ">" 30 27]) (S 30 29) [(SLocalInit [] [I S "let" 31 5; I S "_" 31 9; O S "=" 31 11] (EStruct [] (mk_path false [mk_seg "Strct" [] (S 31 13)]) (S 31 19) [(FieldV [] [I S "field" 31 21] [O S ":" 31 26] (ETry [] (ECall [] (EPath [] (mk_path false [mk_seg "hoge" [] (S 31 28)])) (S 31 32) [] []) (S 31 34)))] [] [] None) [] None [O S ";" 31 37]); (SLocalInit [] [I S "let" 33 5; I S "_" 33 9; O S "=" 33 11] (EStruct [] (mk_path false [mk_seg "Strct" [] (S 33 13)]) (S 33 19) [(FieldV [mk_attr false (S 34 9) (MNameValue (mk_path false [mk_seg "hooq" [] (S 34 11); mk_seg "tag" [] (S 34 17)]) (VStr "field" (S 34 23)))] [I S "field" 35 9] [O S ":" 35 14] (EBlock [] [] (S 35 16) [(SExpr (EIf [] [I S "if" 36 13] (EBinary [] (ETry [] (ECall [] (EPath [] (mk_path false [mk_seg "hoge" [] (S 36 16)])) (S 36 20) [] []) (S 36 22)) [O S ">" 36 24] (ELit [] (LOther "100") (S 36 26))) (S 36 30) [(SExpr (EReturn [mk_attr false (S 37 17) (MNameValue (mk_path false [mk_seg "hooq" [] (S 37 19); mk_seg "tag" [] (S 37 25)]) (VStr "in field expr" (S 37 31)))] (S 38 17) (Some (ECall [] (EPath [] (mk_path false [mk_seg "Err" [] (S 38 24)])) (S 38 27) [(ETuple [] (S 38 28) [] [])] []))) (Some (S 38 31)))] [] None) None); (SExpr (ETry [] (ECall [] (EPath [] (mk_path false [mk_seg "hoge" [] (S 41 13)])) (S 41 17) [] []) (S 41 19)) None)]))] [O S "," 42 10] [] None) [] None [O S ";" 43 6]); (SLocalInit [] [I S "let" 45 5; I S "_" 45 9; O S "=" 45 11] (EStruct [] (mk_path false [mk_seg "Enm" [] (S 45 13); mk_seg "Variant1" [] (S 45 18)]) (S 45 27) [(FieldV [] [I S "field" 45 29] [O S ":" 45 34] (ETry [] (ECall [] (EPath [] (mk_path false [mk_seg "hoge" [] (S 45 36)])) (S 45 40) [] []) (S 45 42)))] [] [] None) [] None [O S ";" 45 45]); (SLocalInit [] [I S "let" 47 5; I S "_" 47 9; O S "=" 47 11] (EStruct [] (mk_path false [mk_seg "Unon" [] (S 47 13)]) (S 47 18) [(FieldV [] [I S "uint32" 47 20] [O S ":" 47 26] (ETry [] (ECall [] (EPath [] (mk_path false [mk_seg "hoge" [] (S 47 28)])) (S 47 32) [] []) (S 47 34)))] [] [] None) [] None [O S ";" 47 37]); (SExpr (ECall [] (EPath [] (mk_path false [mk_seg "Err" [] (S 49 5)])) (S 49 8) [(ETuple [] (S 49 9) [] [])] []) None)]).
Definition args_walker_expr_struct_1 : list meta := let S := at_ "hooq-macros/tests/walker/expr/struct.rs" in [].
Definition rec_walker_expr_struct_1 : list string :=
  ["fn func ( ) - > Result < ( ) , ( ) > { let _ = Strct { field : hoge ( ) . inspect ( | _ | { { : : std : : io : : _print ( format_args ! (";
   """tag:\s{0}\n"" , ""(no\stag)"" ) ) ; } ; } ) ? } ; let _ = Strct { field : { if hoge ( ) . inspect ( | _ | { { : : std : : io : : _print ( format_args !";
   "( ""tag:\s{0}\n"" , ""field"" ) ) ; } ; } ) ? > 100 { return Err ( ( ) ) . inspect ( | _ | { { : : std : : io : : _print ( format_args ! ( ""tag:\s{0}\n"" ,";
   """in\sfield\sexpr"" ) ) ; } ; } ) ; } hoge ( ) . inspect ( | _ | { { : : std : : io : : _print ( format_args ! ( ""tag:\s{0}\n"" , ""field"" ) ) ; } ; } ) ?";
   "} } ; let _ = Enm : : Variant1 { field : hoge ( ) . inspect ( | _ | { { : : std : : io : : _print ( format_args ! ( ""tag:\s{0}\n"" , ""(no\stag)"" ) ) ;";
   "} ; } ) ? } ; let _ = Unon { uint32 : hoge ( ) . inspect ( | _ | { { : : std : : io : : _print ( format_args ! ( ""tag:\s{0}\n"" , ""(no\stag)"" ) ) ; } ;";
   "} ) ? } ; Err ( ( ) ) . inspect ( | _ | { { : : std : : io : : _print ( format_args ! ( ""tag:\s{0}\n"" , ""(no\stag)"" ) ) ; } ; } ) }"].
(** hoge *)
Example recorded_walker_expr_struct_0 : expanded su_walker_expr_struct args_walker_expr_struct_0 it_walker_expr_struct_0 = words rec_walker_expr_struct_0.
Proof. vm_compute. reflexivity. Qed.
(** func *)
Example recorded_walker_expr_struct_1 : expanded su_walker_expr_struct args_walker_expr_struct_1 it_walker_expr_struct_1 = words rec_walker_expr_struct_1.
Proof. vm_compute. reflexivity. Qed.
(** ** hooq-macros/tests/walker/expr/try.rs *)
Definition doc_walker_expr_try : list (string * ftable) := [].
Definition texts_walker_expr_try : list (string * list tt) := let S := at_ "" in [].
Definition strs_walker_expr_try : list (string * string) :=
  [("( no tag )", "(no tag)");
   ("tag : { 0 }", "tag: {0}
")].
Definition ends_walker_expr_try : list (N * N * (N * N * string)) :=
  [(3, 2, (3, 8, "")); (4, 2, (6, 5, "")); (4, 15, (6, 4, "")); (4, 24, (6, 3, "")); (4, 29, (6, 2, "")); (5, 13, (5, 30, "")); (5, 14, (5, 23, """tag: {}""")); (7, 2, (7, 26, "")); (7, 15, (7, 25, """(no tag)""")); (8, 2, (8, 39, "")); (8, 25, (8, 38, "")); (8, 26, (8, 30, """Ok""")); (8, 32, (8, 37, """Err""")); (9, 8, (9, 10, "")); (9, 21, (9, 23, "")); (9, 25, (9, 27, "")); (9, 29, (20, 2, "")); (10, 6, (10, 25, "")); (10, 19, (10, 24, """try""")); (11, 6, (11, 45, "")); (11, 12, (11, 44, "")); (12, 5, (17, 7, "")); (12, 7, (12, 28, "")); (12, 20, (12, 27, """inner""")); (13, 8, (17, 6, "")); (14, 9, (15, 20, "")); (14, 11, (14, 38, "")); (14, 24, (14, 37, """inner inner""")); (15, 15, (15, 19, "")); (15, 16, (15, 18, "")); (15, 20, (15, 22, "")); (16, 12, (16, 16, "")); (16, 13, (16, 15, "")); (17, 7, (17, 9, "")); (19, 8, (19, 12, "")); (19, 9, (19, 11, "")); (22, 2, (22, 8, "")); (23, 8, (23, 10, "")); (23, 11, (25, 2, "")); (24, 9, (24, 11, "")); (24, 22, (24, 24, ""))].
Definition su_walker_expr_try : setup := mk_setup (mk_features false false true false false "hooq") doc_walker_expr_try texts_walker_expr_try strs_walker_expr_try [] ends_walker_expr_try "try".
Definition it_walker_expr_try_0 : item := let S := at_ "hooq-macros/tests/walker/expr/try.rs" in
  (IFn [mk_attr false (S 4 1) (MList (mk_path false [mk_seg "hooq" [] (S 4 3); mk_seg "method" [] (S 4 9)]) Parenth [O S "." 4 16; I S "inspect" 4 17; G S Parenth [O S "|" 4 25; I S "_" 4 26; O S "|" 4 27; G S Brace [I S "println" 5 5; O S "!" 5 12; G S Parenth [L S (LStr "tag: {}") 5 14; O S "," 5 23; O S "$" 5 25; I S "tag" 5 26] 5 13; O S ";" 5 30] 4 29] 4 24] (S 4 15)); mk_attr false (S 7 1) (MNameValue (mk_path false [mk_seg "hooq" [] (S 7 3); mk_seg "tag" [] (S 7 9)]) (VStr "(no tag)" (S 7 15))); mk_attr false (S 8 1) (MList (mk_path false [mk_seg "hooq" [] (S 8 3); mk_seg "tail_expr_idents" [] (S 8 9)]) Parenth [L S (LStr "Ok") 8 26; O S "," 8 30; L S (LStr "Err") 8 32] (S 8 25))] [] (mk_sig "func" (RetPath (mk_path false [mk_seg "Result" [O S "<" 9 20; G S Parenth [] 9 21; O S "," 9 23; G S Parenth [] 9 25; O S ">" 9 27] (S 9 14)])) [I S "fn" 9 1; I S "func" 9 4; G S Parenth [] 9 8; O S "-" 9 11; O S ">" 9 12; I S "Result" 9 14; O S "<" 9 20; G S Parenth [] 9 21; O S "," 9 23; G S Parenth [] 9 25; O S ">" 9 27]) (S 9 29) [(SExpr (ETry [mk_attr false (S 10 5) (MNameValue (mk_path false [mk_seg "hooq" [] (S 10 7); mk_seg "tag" [] (S 10 13)]) (VStr "try" (S 10 19))); mk_attr false (S 11 5) (MList (mk_path false [mk_seg "allow" [] (S 11 7)]) Parenth [I S "clippy" 11 13; O S ":" 11 19; O S ":" 11 20; I S "redundant_closure_call" 11 21] (S 11 12))] (ECall [] (EParen [] (S 12 5) (EClosure [mk_attr false (S 12 6) (MNameValue (mk_path false [mk_seg "hooq" [] (S 12 8); mk_seg "tag" [] (S 12 14)]) (VStr "inner" (S 12 20)))] [O S "|" 13 5; O S "|" 13 6] RetNone (EBlock [] [] (S 13 8) [(SExpr (ETry [] (ECall [] (EParen [] (S 14 9) (EClosure [mk_attr false (S 14 10) (MNameValue (mk_path false [mk_seg "hooq" [] (S 14 12); mk_seg "tag" [] (S 14 18)]) (VStr "inner inner" (S 14 24)))] [O S "|" 15 9; O S "|" 15 10] RetNone (ECall [] (EPath [] (mk_path false [mk_seg "Err" [] (S 15 12)])) (S 15 15) [(ETuple [] (S 15 16) [] [])] []))) (S 15 20) [] []) (S 15 22)) (Some (S 15 23))); (SExpr (ECall [] (EPath [] (mk_path false [mk_seg "Err" [] (S 16 9)])) (S 16 12) [(ETuple [] (S 16 13) [] [])] []) None)]))) (S 17 7) [] []) (S 17 9)) (Some (S 17 10))); (SExpr (ECall [] (EPath [] (mk_path false [mk_seg "Err" [] (S 19 5)])) (S 19 8) [(ETuple [] (S 19 9) [] [])] []) None)]).
Definition args_walker_expr_try_0 : list meta := let S := at_ "hooq-macros/tests/walker/expr/try.rs" in [].
Definition rec_walker_expr_try_0 : list string :=
  ["fn func ( ) - > Result < ( ) , ( ) > { # [ allow ( clippy : : redundant_closure_call ) ] ( | | { ( | | Err ( ( ) ) . inspect ( | _ | { { : : std : :";
   "io : : _print ( format_args ! ( ""tag:\s{0}\n"" , ""inner\sinner"" ) ) ; } ; } ) ) ( ) . inspect ( | _ | { { : : std : : io : : _print ( format_args ! (";
   """tag:\s{0}\n"" , ""inner"" ) ) ; } ; } ) ? ; Err ( ( ) ) . inspect ( | _ | { { : : std : : io : : _print ( format_args ! ( ""tag:\s{0}\n"" , ""inner"" ) ) ;";
   "} ; } ) } ) ( ) . inspect ( | _ | { { : : std : : io : : _print ( format_args ! ( ""tag:\s{0}\n"" , ""try"" ) ) ; } ; } ) ? ; Err ( ( ) ) . inspect ( | _";
   "| { { : : std : : io : : _print ( format_args ! ( ""tag:\s{0}\n"" , ""(no\stag)"" ) ) ; } ; } ) }"].
(** func *)
Example recorded_walker_expr_try_0 : expanded su_walker_expr_try args_walker_expr_try_0 it_walker_expr_try_0 = words rec_walker_expr_try_0.
Proof. vm_compute. reflexivity. Qed.
(** ** hooq-macros/tests/walker/expr/tuple.rs *)
Definition doc_walker_expr_tuple : list (string * ftable) := [].
Definition texts_walker_expr_tuple : list (string * list tt) := let S := at_ "" in [].
Definition strs_walker_expr_tuple : list (string * string) :=
  [("( no tag )", "(no tag)");
   ("5 > Err ( ( ) ) |", "   5>    Err(())
    |");
   ("< hooq_root > / tests / walker / expr / tuple . rs", "<hooq_root>/tests/walker/expr/tuple.rs");
   ("[ { 0 } : { 1 } : { 2 } ] { 3 : ? } { 4 }", "[{0}:{1}:{2}] {3:?}
{4}
");
   ("tag : { 0 }", "tag: {0}
")].
Definition ends_walker_expr_tuple : list (N * N * (N * N * string)) :=
  [(3, 2, (3, 8, "")); (4, 8, (4, 10, "")); (4, 21, (4, 23, "")); (4, 25, (4, 27, "")); (4, 29, (6, 2, "")); (5, 8, (5, 12, "")); (5, 9, (5, 11, "")); (8, 2, (8, 8, "")); (9, 2, (11, 5, "")); (9, 15, (11, 4, "")); (9, 24, (11, 3, "")); (9, 29, (11, 2, "")); (10, 13, (10, 30, "")); (10, 14, (10, 23, """tag: {}""")); (12, 2, (12, 26, "")); (12, 15, (12, 25, """(no tag)""")); (13, 2, (13, 39, "")); (13, 25, (13, 38, "")); (13, 26, (13, 30, """Ok""")); (13, 32, (13, 37, """Err""")); (14, 8, (14, 20, "")); (14, 31, (14, 33, "")); (14, 35, (14, 37, "")); (14, 39, (34, 2, "")); (15, 12, (15, 39, "")); (15, 13, (15, 15, "")); (15, 31, (15, 33, "")); (15, 35, (15, 37, "")); (15, 42, (31, 6, "")); (16, 13, (16, 15, "")); (17, 9, (23, 10, "")); (18, 22, (20, 14, "")); (19, 27, (19, 31, "")); (19, 28, (19, 30, "")); (24, 9, (30, 10, "")); (25, 21, (27, 14, "")); (26, 28, (26, 30, "")); (29, 16, (29, 20, "")); (29, 17, (29, 19, "")); (33, 8, (33, 12, "")); (33, 9, (33, 11, "")); (36, 2, (36, 8, "")); (37, 8, (37, 10, "")); (37, 11, (39, 2, "")); (38, 9, (38, 15, "")); (38, 26, (38, 28, ""))].
Definition su_walker_expr_tuple : setup := mk_setup (mk_features false false true false false "hooq") doc_walker_expr_tuple texts_walker_expr_tuple strs_walker_expr_tuple [] ends_walker_expr_tuple "tuple".
Definition it_walker_expr_tuple_0 : item := let S := at_ "<hooq_root>/tests/walker/expr/tuple.rs" in
  (IFn [] [] (mk_sig "hoge" (RetPath (mk_path false [mk_seg "Result" [O S "<" 4 20; G S Parenth [] 4 21; O S "," 4 23; G S Parenth [] 4 25; O S ">" 4 27] (S 4 14)])) [I S "fn" 4 1; I S "hoge" 4 4; G S Parenth [] 4 8; O S "-" 4 11; O S ">" 4 12; I S "Result" 4 14; O S "<" 4 20; G S Parenth [] 4 21; O S "," 4 23; G S Parenth [] 4 25; O S ">" 4 27]) (S 4 29) [(SExpr (ECall [] (EPath [] (mk_path false [mk_seg "Err" [] (S 5 5)])) (S 5 8) [(ETuple [] (S 5 9) [] [])] []) None)]).
Definition args_walker_expr_tuple_0 : list meta := let S := at_ "<hooq_root>/tests/walker/expr/tuple.rs" in [].
Definition rec_walker_expr_tuple_0 : list string :=
  ["fn hoge ( ) - > Result < ( ) , ( ) > { Err ( ( ) ) . inspect_err ( | e | { let path = ""<hooq_root>/tests/walker/expr/tuple.rs"" ; let line = 5usize ;";
   "let col = 5usize ; let expr = ""\s\s\s5>\s\s\s\sErr(())\n\s\s\s\s|"" ; { : : std : : io : : _eprint ( format_args ! ( ""[{0}:{1}:{2}]\s{3:?}\n{4}\n"" ,";
   "path , line , col , e , expr ) ) ; } ; } ) }"].
Definition it_walker_expr_tuple_1 : item := let S := at_ "<hooq_root>/tests/walker/expr/tuple.rs" in
  (IFn [mk_attr false (S 9 1) (MList (mk_path false [mk_seg "hooq" [] (S 9 3); mk_seg "method" [] (S 9 9)]) Parenth [O S "." 9 16; I S "inspect" 9 17; G S Parenth [O S "|" 9 25; I S "_" 9 26; O S "|" 9 27; G S Brace [I S "println" 10 5; O S "!" 10 12; G S Parenth [L S (LStr "tag: {}") 10 14; O S "," 10 23; O S "$" 10 25; I S "tag" 10 26] 10 13; O S ";" 10 30] 9 29] 9 24] (S 9 15)); mk_attr false (S 12 1) (MNameValue (mk_path false [mk_seg "hooq" [] (S 12 3); mk_seg "tag" [] (S 12 9)]) (VStr "(no tag)" (S 12 15))); mk_attr false (S 13 1) (MList (mk_path false [mk_seg "hooq" [] (S 13 3); mk_seg "tail_expr_idents" [] (S 13 9)]) Parenth [L S (LStr "Ok") 13 26; O S "," 13 30; L S (LStr "Err") 13 32] (S 13 25))] [] (mk_sig "func" (RetPath (mk_path false [mk_seg "Result" [O S "<" 14 30; G S Parenth [] 14 31; O S "," 14 33; G S Parenth [] 14 35; O S ">" 14 37] (S 14 24)])) [I S "fn" 14 1; I S "func" 14 4; G S Parenth [I S "flag" 14 9; O S ":" 14 13; I S "bool" 14 15] 14 8; O S "-" 14 21; O S ">" 14 22; I S "Result" 14 24; O S "<" 14 30; G S Parenth [] 14 31; O S "," 14 33; G S Parenth [] 14 35; O S ">" 14 37]) (S 14 39) [(SLocalInit [] [I S "let" 15 5; I S "_" 15 9; O S ":" 15 10; G S Parenth [G S Parenth [] 15 13; O S "," 15 15; I S "usize" 15 17; O S "," 15 22; I S "Result" 15 24; O S "<" 15 30; G S Parenth [] 15 31; O S "," 15 33; G S Parenth [] 15 35; O S ">" 15 37] 15 12; O S "=" 15 40] (ETuple [] (S 15 42) [(ETry [] (ECall [] (EPath [] (mk_path false [mk_seg "hoge" [] (S 16 9)])) (S 16 13) [] []) (S 16 15)); (EBlock [] [] (S 17 9) [(SExpr (EIf [] [I S "if" 18 13] (EUnary [] [O S "!" 18 16] (EPath [] (mk_path false [mk_seg "flag" [] (S 18 17)]))) (S 18 22) [(SExpr (EReturn [] (S 19 17) (Some (ECall [] (EPath [] (mk_path false [mk_seg "Err" [] (S 19 24)])) (S 19 27) [(ETuple [] (S 19 28) [] [])] []))) (Some (S 19 31)))] [] None) None); (SExpr (ELit [] (LOther "10") (S 22 13)) None)]); (EBlock [] [] (S 24 9) [(SExpr (EIf [] [I S "if" 25 13] (EPath [] (mk_path false [mk_seg "flag" [] (S 25 16)])) (S 25 21) [(SExpr (EReturn [] (S 26 17) (Some (ECall [] (EPath [] (mk_path false [mk_seg "hoge" [] (S 26 24)])) (S 26 28) [] []))) (Some (S 26 30)))] [] None) None); (SExpr (ECall [] (EPath [] (mk_path false [mk_seg "Err" [] (S 29 13)])) (S 29 16) [(ETuple [] (S 29 17) [] [])] []) None)])] [O S "," 16 16; O S "," 23 10; O S "," 30 10]) [] None [O S ";" 31 6]); (SExpr (ECall [] (EPath [] (mk_path false [mk_seg "Err" [] (S 33 5)])) (S 33 8) [(ETuple [] (S 33 9) [] [])] []) None)]).
Definition args_walker_expr_tuple_1 : list meta := let S := at_ "<hooq_root>/tests/walker/expr/tuple.rs" in [].
Definition rec_walker_expr_tuple_1 : list string :=
  ["fn func ( flag : bool ) - > Result < ( ) , ( ) > { let _ : ( ( ) , usize , Result < ( ) , ( ) > ) = ( hoge ( ) . inspect ( | _ | { { : : std : : io :";
   ": _print ( format_args ! ( ""tag:\s{0}\n"" , ""(no\stag)"" ) ) ; } ; } ) ? , { if ! flag { return Err ( ( ) ) . inspect ( | _ | { { : : std : : io : :";
   "_print ( format_args ! ( ""tag:\s{0}\n"" , ""(no\stag)"" ) ) ; } ; } ) ; } 10 } , { if flag { return hoge ( ) . inspect ( | _ | { { : : std : : io : :";
   "_print ( format_args ! ( ""tag:\s{0}\n"" , ""(no\stag)"" ) ) ; } ; } ) ; } Err ( ( ) ) . inspect ( | _ | { { : : std : : io : : _print ( format_args ! (";
   """tag:\s{0}\n"" , ""(no\stag)"" ) ) ; } ; } ) } ) ; Err ( ( ) ) . inspect ( | _ | { { : : std : : io : : _print ( format_args ! ( ""tag:\s{0}\n"" ,";
   """(no\stag)"" ) ) ; } ; } ) }"].
(** hoge *)
Example recorded_walker_expr_tuple_0 : expanded su_walker_expr_tuple args_walker_expr_tuple_0 it_walker_expr_tuple_0 = words rec_walker_expr_tuple_0.
Proof. vm_compute. reflexivity. Qed.
(** func *)
Example recorded_walker_expr_tuple_1 : expanded su_walker_expr_tuple args_walker_expr_tuple_1 it_walker_expr_tuple_1 = words rec_walker_expr_tuple_1.
Proof. vm_compute. reflexivity. Qed.
(** ** hooq-macros/tests/walker/expr/unary.rs *)
Definition doc_walker_expr_unary : list (string * ftable) := [].
Definition texts_walker_expr_unary : list (string * list tt) := let S := at_ "" in [].
Definition strs_walker_expr_unary : list (string * string) :=
  [("( no tag )", "(no tag)");
   ("tag : { 0 }", "tag: {0}
")].
Definition ends_walker_expr_unary : list (N * N * (N * N * string)) :=
  [(3, 2, (3, 8, "")); (4, 15, (4, 21, "")); (4, 35, (4, 37, "")); (4, 39, (6, 2, "")); (5, 7, (5, 10, "")); (8, 2, (8, 8, "")); (9, 2, (11, 5, "")); (9, 15, (11, 4, "")); (9, 24, (11, 3, "")); (9, 29, (11, 2, "")); (10, 13, (10, 30, "")); (10, 14, (10, 23, """tag: {}""")); (12, 2, (12, 26, "")); (12, 15, (12, 25, """(no tag)""")); (13, 8, (13, 10, "")); (13, 21, (13, 23, "")); (13, 25, (13, 27, "")); (13, 29, (33, 2, "")); (14, 22, (14, 28, "")); (15, 22, (21, 7, "")); (15, 23, (21, 6, "")); (16, 14, (18, 10, "")); (17, 23, (17, 27, "")); (17, 24, (17, 26, "")); (22, 22, (22, 26, "")); (23, 22, (30, 7, "")); (23, 23, (30, 6, "")); (24, 18, (26, 10, "")); (25, 28, (25, 32, "")); (25, 29, (25, 31, "")); (28, 10, (28, 32, "")); (28, 23, (28, 31, """nested""")); (29, 17, (29, 24, "")); (32, 8, (32, 12, "")); (32, 9, (32, 11, "")); (35, 2, (35, 8, "")); (36, 8, (36, 10, "")); (36, 11, (38, 2, "")); (37, 9, (37, 11, "")); (37, 22, (37, 24, ""))].
Definition su_walker_expr_unary : setup := mk_setup (mk_features false false true false false "hooq") doc_walker_expr_unary texts_walker_expr_unary strs_walker_expr_unary [] ends_walker_expr_unary "unary".
Definition it_walker_expr_unary_0 : item := let S := at_ "hooq-macros/tests/walker/expr/unary.rs" in
  (IFn [] [] (mk_sig "enresult" (RetPath (mk_path false [mk_seg "Result" [O S "<" 4 31; I S "T" 4 32; O S "," 4 33; G S Parenth [] 4 35; O S ">" 4 37] (S 4 25)])) [I S "fn" 4 1; I S "enresult" 4 4; O S "<" 4 12; I S "T" 4 13; O S ">" 4 14; G S Parenth [I S "v" 4 16; O S ":" 4 17; I S "T" 4 19] 4 15; O S "-" 4 22; O S ">" 4 23; I S "Result" 4 25; O S "<" 4 31; I S "T" 4 32; O S "," 4 33; G S Parenth [] 4 35; O S ">" 4 37]) (S 4 39) [(SExpr (ECall [] (EPath [] (mk_path false [mk_seg "Ok" [] (S 5 5)])) (S 5 7) [(EPath [] (mk_path false [mk_seg "v" [] (S 5 8)]))] []) None)]).
Definition args_walker_expr_unary_0 : list meta := let S := at_ "hooq-macros/tests/walker/expr/unary.rs" in [].
Definition rec_walker_expr_unary_0 : list string :=
  ["fn enresult < T > ( v : T ) - > Result < T , ( ) > { Ok ( v ) }"].
Definition it_walker_expr_unary_1 : item := let S := at_ "hooq-macros/tests/walker/expr/unary.rs" in
  (IFn [mk_attr false (S 9 1) (MList (mk_path false [mk_seg "hooq" [] (S 9 3); mk_seg "method" [] (S 9 9)]) Parenth [O S "." 9 16; I S "inspect" 9 17; G S Parenth [O S "|" 9 25; I S "_" 9 26; O S "|" 9 27; G S Brace [I S "println" 10 5; O S "!" 10 12; G S Parenth [L S (LStr "tag: {}") 10 14; O S "," 10 23; O S "$" 10 25; I S "tag" 10 26] 10 13; O S ";" 10 30] 9 29] 9 24] (S 9 15)); mk_attr false (S 12 1) (MNameValue (mk_path false [mk_seg "hooq" [] (S 12 3); mk_seg "tag" [] (S 12 9)]) (VStr "(no tag)" (S 12 15)))] [] (mk_sig "func" (RetPath (mk_path false [mk_seg "Result" [O S "<" 13 20; G S Parenth [] 13 21; O S "," 13 23; G S Parenth [] 13 25; O S ">" 13 27] (S 13 14)])) [I S "fn" 13 1; I S "func" 13 4; G S Parenth [] 13 8; O S "-" 13 11; O S ">" 13 12; I S "Result" 13 14; O S "<" 13 20; G S Parenth [] 13 21; O S "," 13 23; G S Parenth [] 13 25; O S ">" 13 27]) (S 13 29) [(SLocalInit [] [I S "let" 14 5; I S "b" 14 9; O S "=" 14 11] (EUnary [] [O S "!" 14 13] (ETry [] (ECall [] (EPath [] (mk_path false [mk_seg "enresult" [] (S 14 14)])) (S 14 22) [(EPath [] (mk_path false [mk_seg "true" [] (S 14 23)]))] []) (S 14 28))) [] None [O S ";" 14 29]); (SLocalInit [] [I S "let" 15 5; I S "v" 15 9; O S "=" 15 11] (EUnary [] [O S "-" 15 13] (ETry [] (ECall [] (EPath [] (mk_path false [mk_seg "enresult" [] (S 15 14)])) (S 15 22) [(EBlock [] [] (S 15 23) [(SExpr (EIf [] [I S "if" 16 9] (EPath [] (mk_path false [mk_seg "b" [] (S 16 12)])) (S 16 14) [(SExpr (EReturn [] (S 17 13) (Some (ECall [] (EPath [] (mk_path false [mk_seg "Err" [] (S 17 20)])) (S 17 23) [(ETuple [] (S 17 24) [] [])] []))) (Some (S 17 27)))] [] None) None); (SExpr (ELit [] (LOther "1") (S 20 9)) None)])] []) (S 21 7))) [] None [O S ";" 21 8]); (SLocalInit [] [I S "let" 22 5; I S "v" 22 9; O S "=" 22 11] (EBinary [] (EUnary [] [O S "*" 22 13] (ETry [] (ECall [] (EPath [] (mk_path false [mk_seg "enresult" [] (S 22 14)])) (S 22 22) [(EReference [] [O S "&" 22 23] (EPath [] (mk_path false [mk_seg "v" [] (S 22 24)])))] []) (S 22 26))) [O S "+" 22 28] (ELit [] (LOther "1") (S 22 30))) [] None [O S ";" 22 31]); (SLocalInit [] [I S "let" 23 5; I S "_" 23 9; O S "=" 23 11] (EUnary [] [O S "!" 23 13] (ETry [] (ECall [] (EPath [] (mk_path false [mk_seg "enresult" [] (S 23 14)])) (S 23 22) [(EBlock [] [] (S 23 23) [(SExpr (EIf [] [I S "if" 24 9] (EBinary [] (EPath [] (mk_path false [mk_seg "v" [] (S 24 12)])) [O S ">" 24 14] (ELit [] (LOther "0") (S 24 16))) (S 24 18) [(SExpr (EReturn [] (S 25 13) (Some (ECall [] (EPath [] (mk_path false [mk_seg "enresult" [] (S 25 20)])) (S 25 28) [(ETuple [] (S 25 29) [] [])] []))) (Some (S 25 32)))] [] None) None); (SExpr (ETry [mk_attr false (S 28 9) (MNameValue (mk_path false [mk_seg "hooq" [] (S 28 11); mk_seg "tag" [] (S 28 17)]) (VStr "nested" (S 28 23)))] (ECall [] (EPath [] (mk_path false [mk_seg "enresult" [] (S 29 9)])) (S 29 17) [(EPath [] (mk_path false [mk_seg "false" [] (S 29 18)]))] []) (S 29 24)) None)])] []) (S 30 7))) [] None [O S ";" 30 8]); (SExpr (ECall [] (EPath [] (mk_path false [mk_seg "Err" [] (S 32 5)])) (S 32 8) [(ETuple [] (S 32 9) [] [])] []) None)]).
Definition args_walker_expr_unary_1 : list meta := let S := at_ "hooq-macros/tests/walker/expr/unary.rs" in [].
Definition rec_walker_expr_unary_1 : list string :=
  ["fn func ( ) - > Result < ( ) , ( ) > { let b = ! enresult ( true ) . inspect ( | _ | { { : : std : : io : : _print ( format_args ! ( ""tag:\s{0}\n"" ,";
   """(no\stag)"" ) ) ; } ; } ) ? ; let v = - enresult ( { if b { return Err ( ( ) ) . inspect ( | _ | { { : : std : : io : : _print ( format_args ! (";
   """tag:\s{0}\n"" , ""(no\stag)"" ) ) ; } ; } ) ; } 1 } ) . inspect ( | _ | { { : : std : : io : : _print ( format_args ! ( ""tag:\s{0}\n"" , ""(no\stag)"" ) )";
   "; } ; } ) ? ; let v = * enresult ( & v ) . inspect ( | _ | { { : : std : : io : : _print ( format_args ! ( ""tag:\s{0}\n"" , ""(no\stag)"" ) ) ; } ; } ) ?";
   "+ 1 ; let _ = ! enresult ( { if v > 0 { return enresult ( ( ) ) . inspect ( | _ | { { : : std : : io : : _print ( format_args ! ( ""tag:\s{0}\n"" ,";
   """(no\stag)"" ) ) ; } ; } ) ; } enresult ( false ) . inspect ( | _ | { { : : std : : io : : _print ( format_args ! ( ""tag:\s{0}\n"" , ""nested"" ) ) ; } ;";
   "} ) ? } ) . inspect ( | _ | { { : : std : : io : : _print ( format_args ! ( ""tag:\s{0}\n"" , ""(no\stag)"" ) ) ; } ; } ) ? ; Err ( ( ) ) . inspect ( | _";
   "| { { : : std : : io : : _print ( format_args ! ( ""tag:\s{0}\n"" , ""(no\stag)"" ) ) ; } ; } ) }"].
(** enresult *)
Example recorded_walker_expr_unary_0 : expanded su_walker_expr_unary args_walker_expr_unary_0 it_walker_expr_unary_0 = words rec_walker_expr_unary_0.
Proof. vm_compute. reflexivity. Qed.
(** func *)
Example recorded_walker_expr_unary_1 : expanded su_walker_expr_unary args_walker_expr_unary_1 it_walker_expr_unary_1 = words rec_walker_expr_unary_1.
Proof. vm_compute. reflexivity. Qed.
(** ** hooq-macros/tests/walker/expr/unsafe.rs *)
Definition doc_walker_expr_unsafe : list (string * ftable) := [].
Definition texts_walker_expr_unsafe : list (string * list tt) := let S := at_ "" in [].
Definition strs_walker_expr_unsafe : list (string * string) :=
  [("( no tag )", "(no tag)");
   ("5 > Err ( ( ) ) |", "   5>    Err(())
    |");
   ("< hooq_root > / tests / walker / expr / unsafe . rs", "<hooq_root>/tests/walker/expr/unsafe.rs");
   ("[ { 0 } : { 1 } : { 2 } ] { 3 : ? } { 4 }", "[{0}:{1}:{2}] {3:?}
{4}
");
   ("tag : { 0 }", "tag: {0}
")].
Definition ends_walker_expr_unsafe : list (N * N * (N * N * string)) :=
  [(3, 2, (3, 8, "")); (4, 15, (4, 17, "")); (4, 28, (4, 30, "")); (4, 32, (4, 34, "")); (4, 36, (6, 2, "")); (5, 8, (5, 12, "")); (5, 9, (5, 11, "")); (8, 2, (8, 8, "")); (9, 2, (11, 5, "")); (9, 15, (11, 4, "")); (9, 24, (11, 3, "")); (9, 29, (11, 2, "")); (10, 13, (10, 30, "")); (10, 14, (10, 23, """tag: {}""")); (12, 2, (12, 26, "")); (12, 15, (12, 25, """(no tag)""")); (13, 8, (13, 26, "")); (13, 37, (13, 39, "")); (13, 41, (13, 43, "")); (13, 45, (37, 2, "")); (14, 36, (14, 38, "")); (16, 12, (34, 6, "")); (17, 10, (17, 35, "")); (17, 23, (17, 34, """in unsafe""")); (18, 13, (18, 15, "")); (20, 22, (20, 24, "")); (20, 34, (20, 41, "")); (20, 42, (22, 10, "")); (21, 23, (21, 27, "")); (21, 24, (21, 26, "")); (24, 20, (29, 10, "")); (25, 14, (25, 40, "")); (25, 27, (25, 39, """in closure""")); (26, 17, (26, 19, "")); (28, 17, (28, 19, "")); (31, 22, (31, 24, "")); (31, 34, (31, 41, "")); (31, 42, (33, 10, "")); (32, 24, (32, 26, "")); (36, 8, (36, 12, "")); (36, 9, (36, 11, "")); (39, 2, (39, 8, "")); (40, 8, (40, 10, "")); (40, 11, (42, 2, "")); (41, 9, (41, 29, "")); (41, 14, (41, 28, "")); (41, 40, (41, 42, ""))].
Definition su_walker_expr_unsafe : setup := mk_setup (mk_features false false true false false "hooq") doc_walker_expr_unsafe texts_walker_expr_unsafe strs_walker_expr_unsafe [] ends_walker_expr_unsafe "unsafe".
Definition it_walker_expr_unsafe_0 : item := let S := at_ "<hooq_root>/tests/walker/expr/unsafe.rs" in
  (IFn [] [] (mk_sig "hoge" (RetPath (mk_path false [mk_seg "Result" [O S "<" 4 27; G S Parenth [] 4 28; O S "," 4 30; G S Parenth [] 4 32; O S ">" 4 34] (S 4 21)])) [I S "unsafe" 4 1; I S "fn" 4 8; I S "hoge" 4 11; G S Parenth [] 4 15; O S "-" 4 18; O S ">" 4 19; I S "Result" 4 21; O S "<" 4 27; G S Parenth [] 4 28; O S "," 4 30; G S Parenth [] 4 32; O S ">" 4 34]) (S 4 36) [(SExpr (ECall [] (EPath [] (mk_path false [mk_seg "Err" [] (S 5 5)])) (S 5 8) [(ETuple [] (S 5 9) [] [])] []) None)]).
Definition args_walker_expr_unsafe_0 : list meta := let S := at_ "<hooq_root>/tests/walker/expr/unsafe.rs" in [].
Definition rec_walker_expr_unsafe_0 : list string :=
  ["unsafe fn hoge ( ) - > Result < ( ) , ( ) > { Err ( ( ) ) . inspect_err ( | e | { let path = ""<hooq_root>/tests/walker/expr/unsafe.rs"" ; let line =";
   "5usize ; let col = 5usize ; let expr = ""\s\s\s5>\s\s\s\sErr(())\n\s\s\s\s|"" ; { : : std : : io : : _eprint ( format_args ! (";
   """[{0}:{1}:{2}]\s{3:?}\n{4}\n"" , path , line , col , e , expr ) ) ; } ; } ) }"].
Definition it_walker_expr_unsafe_1 : item := let S := at_ "<hooq_root>/tests/walker/expr/unsafe.rs" in
  (IFn [mk_attr false (S 9 1) (MList (mk_path false [mk_seg "hooq" [] (S 9 3); mk_seg "method" [] (S 9 9)]) Parenth [O S "." 9 16; I S "inspect" 9 17; G S Parenth [O S "|" 9 25; I S "_" 9 26; O S "|" 9 27; G S Brace [I S "println" 10 5; O S "!" 10 12; G S Parenth [L S (LStr "tag: {}") 10 14; O S "," 10 23; O S "$" 10 25; I S "tag" 10 26] 10 13; O S ";" 10 30] 9 29] 9 24] (S 9 15)); mk_attr false (S 12 1) (MNameValue (mk_path false [mk_seg "hooq" [] (S 12 3); mk_seg "tag" [] (S 12 9)]) (VStr "(no tag)" (S 12 15)))] [] (mk_sig "func" (RetPath (mk_path false [mk_seg "Result" [O S "<" 13 36; G S Parenth [] 13 37; O S "," 13 39; G S Parenth [] 13 41; O S ">" 13 43] (S 13 30)])) [I S "fn" 13 1; I S "func" 13 4; G S Parenth [I S "flags" 13 9; O S ":" 13 14; I S "Vec" 13 16; O S "<" 13 19; I S "bool" 13 20; O S ">" 13 24] 13 8; O S "-" 13 27; O S ">" 13 28; I S "Result" 13 30; O S "<" 13 36; G S Parenth [] 13 37; O S "," 13 39; G S Parenth [] 13 41; O S ">" 13 43]) (S 13 45) [(SLocalInit [] [I S "let" 14 5; I S "mut" 14 9; I S "flags" 14 13; O S "=" 14 19] (EMethodCall [] (EPath [] (mk_path false [mk_seg "flags" [] (S 14 21)])) [O S "." 14 26; I S "into_iter" 14 27] (S 14 36) [] []) [] None [O S ";" 14 38]); (SExpr (EUnsafe [] [I S "unsafe" 16 5] (S 16 12) [(SExpr (ETry [mk_attr false (S 17 9) (MNameValue (mk_path false [mk_seg "hooq" [] (S 17 11); mk_seg "tag" [] (S 17 17)]) (VStr "in unsafe" (S 17 23)))] (ECall [] (EPath [] (mk_path false [mk_seg "hoge" [] (S 18 9)])) (S 18 13) [] []) (S 18 15)) (Some (S 18 16))); (SExpr (EIf [] [I S "if" 20 9] (EMethodCall [] (EMethodCall [] (EPath [] (mk_path false [mk_seg "flags" [] (S 20 12)])) [O S "." 20 17; I S "next" 20 18] (S 20 22) [] []) [O S "." 20 24; I S "unwrap_or" 20 25] (S 20 34) [(EPath [] (mk_path false [mk_seg "false" [] (S 20 35)]))] []) (S 20 42) [(SExpr (EReturn [] (S 21 13) (Some (ECall [] (EPath [] (mk_path false [mk_seg "Err" [] (S 21 20)])) (S 21 23) [(ETuple [] (S 21 24) [] [])] []))) (Some (S 21 27)))] [] None) None); (SLocalInit [] [I S "let" 24 9; I S "_" 24 13; O S "=" 24 15] (EClosure [] [O S "|" 24 17; O S "|" 24 18] RetNone (EBlock [] [] (S 24 20) [(SExpr (ETry [mk_attr false (S 25 13) (MNameValue (mk_path false [mk_seg "hooq" [] (S 25 15); mk_seg "tag" [] (S 25 21)]) (VStr "in closure" (S 25 27)))] (ECall [] (EPath [] (mk_path false [mk_seg "hoge" [] (S 26 13)])) (S 26 17) [] []) (S 26 19)) (Some (S 26 20))); (SExpr (ECall [] (EPath [] (mk_path false [mk_seg "hoge" [] (S 28 13)])) (S 28 17) [] []) None)])) [] None [O S ";" 29 10]); (SExpr (EIf [] [I S "if" 31 9] (EMethodCall [] (EMethodCall [] (EPath [] (mk_path false [mk_seg "flags" [] (S 31 12)])) [O S "." 31 17; I S "next" 31 18] (S 31 22) [] []) [O S "." 31 24; I S "unwrap_or" 31 25] (S 31 34) [(EPath [] (mk_path false [mk_seg "false" [] (S 31 35)]))] []) (S 31 42) [(SExpr (EReturn [] (S 32 13) (Some (ECall [] (EPath [] (mk_path false [mk_seg "hoge" [] (S 32 20)])) (S 32 24) [] []))) (Some (S 32 26)))] [] None) None)]) None); (SExpr (ECall [] (EPath [] (mk_path false [mk_seg "Err" [] (S 36 5)])) (S 36 8) [(ETuple [] (S 36 9) [] [])] []) None)]).
Definition args_walker_expr_unsafe_1 : list meta := let S := at_ "<hooq_root>/tests/walker/expr/unsafe.rs" in [].
Definition rec_walker_expr_unsafe_1 : list string :=
  ["fn func ( flags : Vec < bool > ) - > Result < ( ) , ( ) > { let mut flags = flags . into_iter ( ) ; unsafe { hoge ( ) . inspect ( | _ | { { : : std :";
   ": io : : _print ( format_args ! ( ""tag:\s{0}\n"" , ""in\sunsafe"" ) ) ; } ; } ) ? ; if flags . next ( ) . unwrap_or ( false ) { return Err ( ( ) ) .";
   "inspect ( | _ | { { : : std : : io : : _print ( format_args ! ( ""tag:\s{0}\n"" , ""(no\stag)"" ) ) ; } ; } ) ; } let _ = | | { hoge ( ) . inspect ( | _ |";
   "{ { : : std : : io : : _print ( format_args ! ( ""tag:\s{0}\n"" , ""in\sclosure"" ) ) ; } ; } ) ? ; hoge ( ) } ; if flags . next ( ) . unwrap_or ( false )";
   "{ return hoge ( ) . inspect ( | _ | { { : : std : : io : : _print ( format_args ! ( ""tag:\s{0}\n"" , ""(no\stag)"" ) ) ; } ; } ) ; } } Err ( ( ) ) .";
   "inspect ( | _ | { { : : std : : io : : _print ( format_args ! ( ""tag:\s{0}\n"" , ""(no\stag)"" ) ) ; } ; } ) }"].
(** hoge *)
Example recorded_walker_expr_unsafe_0 : expanded su_walker_expr_unsafe args_walker_expr_unsafe_0 it_walker_expr_unsafe_0 = words rec_walker_expr_unsafe_0.
Proof. vm_compute. reflexivity. Qed.
(** func *)
Example recorded_walker_expr_unsafe_1 : expanded su_walker_expr_unsafe args_walker_expr_unsafe_1 it_walker_expr_unsafe_1 = words rec_walker_expr_unsafe_1.
Proof. vm_compute. reflexivity. Qed.
(** ** hooq-macros/tests/walker/expr/while.rs *)
Definition doc_walker_expr_while : list (string * ftable) := [].
Definition texts_walker_expr_while : list (string * list tt) := let S := at_ "" in [].
Definition strs_walker_expr_while : list (string * string) :=
  [("( no tag )", "(no tag)");
   ("tag : { 0 }", "tag: {0}
")].
Definition ends_walker_expr_while : list (N * N * (N * N * string)) :=
  [(3, 2, (3, 8, "")); (4, 12, (4, 27, "")); (4, 44, (4, 46, "")); (4, 48, (8, 2, "")); (7, 7, (7, 15, "")); (10, 2, (10, 8, "")); (11, 2, (13, 5, "")); (11, 15, (13, 4, "")); (11, 24, (13, 3, "")); (11, 29, (13, 2, "")); (12, 13, (12, 30, "")); (12, 14, (12, 23, """tag: {}""")); (14, 2, (14, 26, "")); (14, 15, (14, 25, """(no tag)""")); (15, 8, (15, 10, "")); (15, 21, (15, 23, "")); (15, 25, (15, 27, "")); (15, 29, (47, 2, "")); (18, 6, (18, 27, "")); (18, 19, (18, 26, """while""")); (19, 19, (19, 27, "")); (19, 29, (44, 6, "")); (22, 25, (22, 33, "")); (24, 10, (24, 27, "")); (24, 23, (24, 26, """1""")); (25, 21, (25, 29, "")); (25, 31, (29, 10, "")); (26, 21, (26, 29, "")); (28, 23, (28, 27, "")); (28, 24, (28, 26, "")); (31, 10, (31, 27, "")); (31, 23, (31, 26, """2""")); (32, 21, (32, 29, "")); (32, 31, (36, 10, "")); (33, 21, (33, 29, "")); (35, 28, (35, 36, "")); (35, 40, (35, 48, "")); (35, 45, (35, 47, "")); (38, 10, (38, 27, "")); (38, 23, (38, 26, """3""")); (39, 21, (39, 29, "")); (39, 31, (43, 10, "")); (40, 21, (40, 29, "")); (46, 8, (46, 12, "")); (46, 9, (46, 11, "")); (49, 2, (49, 8, "")); (50, 8, (50, 10, "")); (50, 11, (52, 2, "")); (51, 9, (51, 11, "")); (51, 22, (51, 24, ""))].
Definition su_walker_expr_while : setup := mk_setup (mk_features false false true false false "hooq") doc_walker_expr_while texts_walker_expr_while strs_walker_expr_while [] ends_walker_expr_while "while".
Definition it_walker_expr_while_0 : item := let S := at_ "hooq-macros/tests/walker/expr/while.rs" in
  (IFn [] [] (mk_sig "get_bool" (RetPath (mk_path false [mk_seg "Result" [O S "<" 4 37; I S "bool" 4 38; O S "," 4 42; G S Parenth [] 4 44; O S ">" 4 46] (S 4 31)])) [I S "fn" 4 1; I S "get_bool" 4 4; G S Parenth [I S "i" 4 13; O S ":" 4 14; O S "&" 4 16; I S "mut" 4 17; I S "usize" 4 21] 4 12; O S "-" 4 28; O S ">" 4 29; I S "Result" 4 31; O S "<" 4 37; I S "bool" 4 38; O S "," 4 42; G S Parenth [] 4 44; O S ">" 4 46]) (S 4 48) [(SExpr (EBinary [] (EUnary [] [O S "*" 5 5] (EPath [] (mk_path false [mk_seg "i" [] (S 5 6)]))) [O S "+" 5 8; O S "=" 5 9] (ELit [] (LOther "1") (S 5 11))) (Some (S 5 12))); (SExpr (ECall [] (EPath [] (mk_path false [mk_seg "Ok" [] (S 7 5)])) (S 7 7) [(EBinary [] (EUnary [] [O S "*" 7 8] (EPath [] (mk_path false [mk_seg "i" [] (S 7 9)]))) [O S "<" 7 11] (ELit [] (LOther "5") (S 7 13)))] []) None)]).
Definition args_walker_expr_while_0 : list meta := let S := at_ "hooq-macros/tests/walker/expr/while.rs" in [].
Definition rec_walker_expr_while_0 : list string :=
  ["fn get_bool ( i : & mut usize ) - > Result < bool , ( ) > { * i + = 1 ; Ok ( * i < 5 ) }"].
Definition it_walker_expr_while_1 : item := let S := at_ "hooq-macros/tests/walker/expr/while.rs" in
  (IFn [mk_attr false (S 11 1) (MList (mk_path false [mk_seg "hooq" [] (S 11 3); mk_seg "method" [] (S 11 9)]) Parenth [O S "." 11 16; I S "inspect" 11 17; G S Parenth [O S "|" 11 25; I S "_" 11 26; O S "|" 11 27; G S Brace [I S "println" 12 5; O S "!" 12 12; G S Parenth [L S (LStr "tag: {}") 12 14; O S "," 12 23; O S "$" 12 25; I S "tag" 12 26] 12 13; O S ";" 12 30] 11 29] 11 24] (S 11 15)); mk_attr false (S 14 1) (MNameValue (mk_path false [mk_seg "hooq" [] (S 14 3); mk_seg "tag" [] (S 14 9)]) (VStr "(no tag)" (S 14 15)))] [] (mk_sig "func" (RetPath (mk_path false [mk_seg "Result" [O S "<" 15 20; G S Parenth [] 15 21; O S "," 15 23; G S Parenth [] 15 25; O S ">" 15 27] (S 15 14)])) [I S "fn" 15 1; I S "func" 15 4; G S Parenth [] 15 8; O S "-" 15 11; O S ">" 15 12; I S "Result" 15 14; O S "<" 15 20; G S Parenth [] 15 21; O S "," 15 23; G S Parenth [] 15 25; O S ">" 15 27]) (S 15 29) [(SLocalInit [] [I S "let" 16 5; I S "mut" 16 9; I S "i" 16 13; O S "=" 16 15] (ELit [] (LOther "0") (S 16 17)) [] None [O S ";" 16 18]); (SExpr (EWhile [mk_attr false (S 18 5) (MNameValue (mk_path false [mk_seg "hooq" [] (S 18 7); mk_seg "tag" [] (S 18 13)]) (VStr "while" (S 18 19)))] [I S "while" 19 5] (ETry [] (ECall [] (EPath [] (mk_path false [mk_seg "get_bool" [] (S 19 11)])) (S 19 19) [(EReference [] [O S "&" 19 20; I S "mut" 19 21] (EPath [] (mk_path false [mk_seg "i" [] (S 19 25)])))] []) (S 19 27)) (S 19 29) [(SLocalInit [] [I S "let" 20 9; I S "mut" 20 13; I S "j" 20 17; O S "=" 20 19] (ELit [] (LOther "0") (S 20 21)) [] None [O S ";" 20 22]); (SLocalInit [] [I S "let" 22 9; I S "_" 22 13; O S "=" 22 15] (ETry [] (ECall [] (EPath [] (mk_path false [mk_seg "get_bool" [] (S 22 17)])) (S 22 25) [(EReference [] [O S "&" 22 26; I S "mut" 22 27] (EPath [] (mk_path false [mk_seg "j" [] (S 22 31)])))] []) (S 22 33)) [] None [O S ";" 22 34]); (SExpr (EIf [mk_attr false (S 24 9) (MNameValue (mk_path false [mk_seg "hooq" [] (S 24 11); mk_seg "tag" [] (S 24 17)]) (VStr "1" (S 24 23)))] [I S "if" 25 9] (EUnary [] [O S "!" 25 12] (ETry [] (ECall [] (EPath [] (mk_path false [mk_seg "get_bool" [] (S 25 13)])) (S 25 21) [(EReference [] [O S "&" 25 22; I S "mut" 25 23] (EPath [] (mk_path false [mk_seg "j" [] (S 25 27)])))] []) (S 25 29))) (S 25 31) [(SExpr (ETry [] (ECall [] (EPath [] (mk_path false [mk_seg "get_bool" [] (S 26 13)])) (S 26 21) [(EReference [] [O S "&" 26 22; I S "mut" 26 23] (EPath [] (mk_path false [mk_seg "j" [] (S 26 27)])))] []) (S 26 29)) (Some (S 26 30))); (SExpr (EReturn [] (S 28 13) (Some (ECall [] (EPath [] (mk_path false [mk_seg "Err" [] (S 28 20)])) (S 28 23) [(ETuple [] (S 28 24) [] [])] []))) (Some (S 28 27)))] [] None) None); (SExpr (EIf [mk_attr false (S 31 9) (MNameValue (mk_path false [mk_seg "hooq" [] (S 31 11); mk_seg "tag" [] (S 31 17)]) (VStr "2" (S 31 23)))] [I S "if" 32 9] (EUnary [] [O S "!" 32 12] (ETry [] (ECall [] (EPath [] (mk_path false [mk_seg "get_bool" [] (S 32 13)])) (S 32 21) [(EReference [] [O S "&" 32 22; I S "mut" 32 23] (EPath [] (mk_path false [mk_seg "j" [] (S 32 27)])))] []) (S 32 29))) (S 32 31) [(SExpr (ETry [] (ECall [] (EPath [] (mk_path false [mk_seg "get_bool" [] (S 33 13)])) (S 33 21) [(EReference [] [O S "&" 33 22; I S "mut" 33 23] (EPath [] (mk_path false [mk_seg "j" [] (S 33 27)])))] []) (S 33 29)) (Some (S 33 30))); (SExpr (EReturn [] (S 35 13) (Some (EMethodCall [] (ECall [] (EPath [] (mk_path false [mk_seg "get_bool" [] (S 35 20)])) (S 35 28) [(EReference [] [O S "&" 35 29; I S "mut" 35 30] (EPath [] (mk_path false [mk_seg "j" [] (S 35 34)])))] []) [O S "." 35 36; I S "map" 35 37] (S 35 40) [(EClosure [] [O S "|" 35 41; I S "_" 35 42; O S "|" 35 43] RetNone (ETuple [] (S 35 45) [] []))] []))) (Some (S 35 48)))] [] None) None); (SExpr (EIf [mk_attr false (S 38 9) (MNameValue (mk_path false [mk_seg "hooq" [] (S 38 11); mk_seg "tag" [] (S 38 17)]) (VStr "3" (S 38 23)))] [I S "if" 39 9] (EUnary [] [O S "!" 39 12] (ETry [] (ECall [] (EPath [] (mk_path false [mk_seg "get_bool" [] (S 39 13)])) (S 39 21) [(EReference [] [O S "&" 39 22; I S "mut" 39 23] (EPath [] (mk_path false [mk_seg "j" [] (S 39 27)])))] []) (S 39 29))) (S 39 31) [(SExpr (ETry [] (ECall [] (EPath [] (mk_path false [mk_seg "get_bool" [] (S 40 13)])) (S 40 21) [(EReference [] [O S "&" 40 22; I S "mut" 40 23] (EPath [] (mk_path false [mk_seg "j" [] (S 40 27)])))] []) (S 40 29)) (Some (S 40 30))); (SExpr (EBreak [] [I S "break" 42 13] None) (Some (S 42 18)))] [] None) None)]) None); (SExpr (ECall [] (EPath [] (mk_path false [mk_seg "Err" [] (S 46 5)])) (S 46 8) [(ETuple [] (S 46 9) [] [])] []) None)]).
Definition args_walker_expr_while_1 : list meta := let S := at_ "hooq-macros/tests/walker/expr/while.rs" in [].
Definition rec_walker_expr_while_1 : list string :=
  ["fn func ( ) - > Result < ( ) , ( ) > { let mut i = 0 ; while get_bool ( & mut i ) . inspect ( | _ | { { : : std : : io : : _print ( format_args ! (";
   """tag:\s{0}\n"" , ""while"" ) ) ; } ; } ) ? { let mut j = 0 ; let _ = get_bool ( & mut j ) . inspect ( | _ | { { : : std : : io : : _print ( format_args !";
   "( ""tag:\s{0}\n"" , ""while"" ) ) ; } ; } ) ? ; if ! get_bool ( & mut j ) . inspect ( | _ | { { : : std : : io : : _print ( format_args ! ( ""tag:\s{0}\n""";
   ", ""1"" ) ) ; } ; } ) ? { get_bool ( & mut j ) . inspect ( | _ | { { : : std : : io : : _print ( format_args ! ( ""tag:\s{0}\n"" , ""1"" ) ) ; } ; } ) ? ;";
   "return Err ( ( ) ) . inspect ( | _ | { { : : std : : io : : _print ( format_args ! ( ""tag:\s{0}\n"" , ""1"" ) ) ; } ; } ) ; } if ! get_bool ( & mut j ) .";
   "inspect ( | _ | { { : : std : : io : : _print ( format_args ! ( ""tag:\s{0}\n"" , ""2"" ) ) ; } ; } ) ? { get_bool ( & mut j ) . inspect ( | _ | { { : :";
   "std : : io : : _print ( format_args ! ( ""tag:\s{0}\n"" , ""2"" ) ) ; } ; } ) ? ; return get_bool ( & mut j ) . map ( | _ | ( ) ) . inspect ( | _ | { { :";
   ": std : : io : : _print ( format_args ! ( ""tag:\s{0}\n"" , ""2"" ) ) ; } ; } ) ; } if ! get_bool ( & mut j ) . inspect ( | _ | { { : : std : : io : :";
   "_print ( format_args ! ( ""tag:\s{0}\n"" , ""3"" ) ) ; } ; } ) ? { get_bool ( & mut j ) . inspect ( | _ | { { : : std : : io : : _print ( format_args ! (";
   """tag:\s{0}\n"" , ""3"" ) ) ; } ; } ) ? ; break ; } } Err ( ( ) ) . inspect ( | _ | { { : : std : : io : : _print ( format_args ! ( ""tag:\s{0}\n"" ,";
   """(no\stag)"" ) ) ; } ; } ) }"].
(** get_bool *)
Example recorded_walker_expr_while_0 : expanded su_walker_expr_while args_walker_expr_while_0 it_walker_expr_while_0 = words rec_walker_expr_while_0.
Proof. vm_compute. reflexivity. Qed.
(** func *)
Example recorded_walker_expr_while_1 : expanded su_walker_expr_while args_walker_expr_while_1 it_walker_expr_while_1 = words rec_walker_expr_while_1.
Proof. vm_compute. reflexivity. Qed.
