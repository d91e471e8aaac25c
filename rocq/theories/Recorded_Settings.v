(** Recorded expansions of the real macro: special: settings, skips and presets.  Generated by conformance/gen.py.  *)
From Coq Require Import String Ascii Bool Arith NArith List.
From Verif Require Import Base Tokens Method Paths Context Flavor Attrs Syntax Conformance.
Import ListNotations.
Open Scope string_scope.
Open Scope list_scope.
Open Scope N_scope.

(** ** hooq-macros/tests/special/consume-question/src/consume_question.rs *)
Definition doc_special_consume_question_consume_question : list (string * ftable) := [].
Definition texts_special_consume_question_consume_question : list (string * list tt) := let S := at_ "" in [].
Definition strs_special_consume_question_consume_question : list (string * string) :=
  [].
Definition ends_special_consume_question_consume_question : list (N * N * (N * N * string)) :=
  [(3, 15, (3, 23, "")); (3, 45, (5, 2, "")); (4, 7, (4, 12, "")); (7, 2, (7, 8, "")); (8, 2, (8, 28, "")); (8, 15, (8, 27, "")); (8, 23, (8, 25, "")); (9, 19, (9, 21, "")); (9, 22, (11, 2, "")); (10, 13, (10, 17, "")); (10, 14, (10, 16, "")); (13, 2, (13, 8, "")); (14, 2, (17, 5, "")); (14, 15, (17, 4, "")); (14, 28, (17, 2, "")); (15, 7, (15, 10, "")); (16, 8, (16, 11, "")); (16, 25, (16, 28, "")); (18, 2, (18, 27, "")); (18, 21, (18, 26, "")); (18, 22, (18, 25, """?""")); (19, 2, (19, 32, "")); (19, 8, (19, 31, "")); (20, 18, (20, 20, "")); (20, 31, (20, 33, "")); (20, 43, (24, 2, "")); (21, 13, (21, 17, "")); (21, 14, (21, 16, "")); (23, 7, (23, 11, "")); (23, 8, (23, 10, ""))].
Definition su_special_consume_question_consume_question : setup := mk_setup (mk_features true false false false false "hooq") doc_special_consume_question_consume_question texts_special_consume_question_consume_question strs_special_consume_question_consume_question [] ends_special_consume_question_consume_question "consume_question".
Definition it_special_consume_question_consume_question_0 : item := let S := at_ "hooq-macros/tests/special/consume-question/src/consume_question.rs" in
  (IFn [mk_attr false (S 8 1) (MList (mk_path false [mk_seg "hooq" [] (S 8 3); mk_seg "method" [] (S 8 9)]) Parenth [O S "." 8 16; I S "unwrap" 8 17; G S Parenth [] 8 23; O S "!" 8 25] (S 8 15))] [I S "pub" 9 1] (mk_sig "func_unwrap" RetNone [I S "fn" 9 5; I S "func_unwrap" 9 8; G S Parenth [] 9 19]) (S 9 22) [(SExpr (ETry [] (ECall [] (EPath [] (mk_path false [mk_seg "enresult" [] (S 10 5)])) (S 10 13) [(ETuple [] (S 10 14) [] [])] []) (S 10 17)) (Some (S 10 18)))]).
Definition args_special_consume_question_consume_question_0 : list meta := let S := at_ "hooq-macros/tests/special/consume-question/src/consume_question.rs" in [].
Definition rec_special_consume_question_consume_question_0 : list string :=
  ["pub fn func_unwrap ( ) { enresult ( ( ) ) . unwrap ( ) ; }"].
Definition it_special_consume_question_consume_question_1 : item := let S := at_ "hooq-macros/tests/special/consume-question/src/consume_question.rs" in
  (IFn [mk_attr false (S 14 1) (MList (mk_path false [mk_seg "hooq" [] (S 14 3); mk_seg "method" [] (S 14 9)]) Parenth [I S "match" 14 16; O S "$" 14 22; I S "expr" 14 23; G S Brace [I S "Ok" 15 5; G S Parenth [I S "v" 15 8] 15 7; O S "=" 15 11; O S ">" 15 12; I S "v" 15 14; O S "," 15 15; I S "Err" 16 5; G S Parenth [I S "e" 16 9] 16 8; O S "=" 16 12; O S ">" 16 13; I S "return" 16 15; I S "Err" 16 22; G S Parenth [I S "e" 16 26] 16 25; O S "," 16 28] 14 28; O S "!" 17 2] (S 14 15)); mk_attr false (S 18 1) (MList (mk_path false [mk_seg "hooq" [] (S 18 3); mk_seg "hook_targets" [] (S 18 9)]) Parenth [L S (LStr "?") 18 22] (S 18 21)); mk_attr false (S 19 1) (MList (mk_path false [mk_seg "allow" [] (S 19 3)]) Parenth [I S "clippy" 19 9; O S ":" 19 15; O S ":" 19 16; I S "question_mark" 19 17] (S 19 8))] [I S "pub" 20 1] (mk_sig "func_match" (RetPath (mk_path false [mk_seg "Result" [O S "<" 20 30; G S Parenth [] 20 31; O S "," 20 33; I S "String" 20 35; O S ">" 20 41] (S 20 24)])) [I S "fn" 20 5; I S "func_match" 20 8; G S Parenth [] 20 18; O S "-" 20 21; O S ">" 20 22; I S "Result" 20 24; O S "<" 20 30; G S Parenth [] 20 31; O S "," 20 33; I S "String" 20 35; O S ">" 20 41]) (S 20 43) [(SExpr (ETry [] (ECall [] (EPath [] (mk_path false [mk_seg "enresult" [] (S 21 5)])) (S 21 13) [(ETuple [] (S 21 14) [] [])] []) (S 21 17)) (Some (S 21 18))); (SExpr (ECall [] (EPath [] (mk_path false [mk_seg "Ok" [] (S 23 5)])) (S 23 7) [(ETuple [] (S 23 8) [] [])] []) None)]).
Definition args_special_consume_question_consume_question_1 : list meta := let S := at_ "hooq-macros/tests/special/consume-question/src/consume_question.rs" in [].
Definition rec_special_consume_question_consume_question_1 : list string :=
  ["# [ allow ( clippy : : question_mark ) ] pub fn func_match ( ) - > Result < ( ) , String > { match enresult ( ( ) ) { Ok ( v ) = > v Err ( e ) = >";
   "return Err ( e ) } ; Ok ( ( ) ) }"].
(** func_unwrap *)
Example recorded_special_consume_question_consume_question_0 : expanded su_special_consume_question_consume_question args_special_consume_question_consume_question_0 it_special_consume_question_consume_question_0 = words rec_special_consume_question_consume_question_0.
Proof. vm_compute. reflexivity. Qed.
(** func_match *)
Example recorded_special_consume_question_consume_question_1 : expanded su_special_consume_question_consume_question args_special_consume_question_consume_question_1 it_special_consume_question_consume_question_1 = words rec_special_consume_question_consume_question_1.
Proof. vm_compute. reflexivity. Qed.
(** ** hooq-macros/tests/special/flavor/custom/tests/tests_inner/custom.rs *)
Definition doc_special_flavor_custom_custom : list (string * ftable) := [("my_flavor", FTable (mk_tcore [] (Some ".inspect(|v| println!(""Ok Value with: {v:?} & with tag: {}"", $tag))
.inspect_err(|e| eprintln!(""Err Value with: {e:?} & with tag: {}"", $tag))") None None (Some []) None None [("tag", """[default]""")]) [("sub", FTable (mk_tcore [] None None None None None None [("tag", """[sub]""")]) [("sub", FTable (mk_tcore [] None None (Some ["Ok"; "Err"]) None None None [("tag", """[sub.sub]""")]) [("ignore_tail_expr_idents_test_2", FTable (mk_tcore [] None None (Some ["Err"; "!Ok"]) None None None [("tag", """[ignore_tail_expr_idents_test_2]""")]) [])])]); ("ignore_tail_expr_idents_test_1", FTable (mk_tcore [] None None (Some ["Err"]) (Some ["Ok"]) None None [("tag", """[ignore_tail_expr_idents_test_1]""")]) [])])].
Definition texts_special_flavor_custom_custom : list (string * list tt) := let S := at_ "" in [("""[default]""", [L S (LStr "[default]") 1 1]);
  ("""[ignore_tail_expr_idents_test_1]""", [L S (LStr "[ignore_tail_expr_idents_test_1]") 1 1]);
  ("""[ignore_tail_expr_idents_test_2]""", [L S (LStr "[ignore_tail_expr_idents_test_2]") 1 1]);
  ("""[sub.sub]""", [L S (LStr "[sub.sub]") 1 1]);
  ("""[sub]""", [L S (LStr "[sub]") 1 1]);
  (".inspect(|v| println!(""Ok Value with: {v:?} & with tag: {}"", $tag))
.inspect_err(|e| eprintln!(""Err Value with: {e:?} & with tag: {}"", $tag))", [O S "." 1 1; I S "inspect" 1 2; G S Parenth [O S "|" 1 10; I S "v" 1 11; O S "|" 1 12; I S "println" 1 14; O S "!" 1 21; G S Parenth [L S (LStr "Ok Value with: {v:?} & with tag: {}") 1 23; O S "," 1 60; O S "$" 1 62; I S "tag" 1 63] 1 22] 1 9; O S "." 2 1; I S "inspect_err" 2 2; G S Parenth [O S "|" 2 14; I S "e" 2 15; O S "|" 2 16; I S "eprintln" 2 18; O S "!" 2 26; G S Parenth [L S (LStr "Err Value with: {e:?} & with tag: {}") 2 28; O S "," 2 66; O S "$" 2 68; I S "tag" 2 69] 2 27] 2 13])].
Definition strs_special_flavor_custom_custom : list (string * string) :=
  [("Err Value with : { 1 : ? } & with tag : { 0 }", "Err Value with: {1:?} & with tag: {0}
");
   ("Ok Value with : { 1 : ? } & with tag : { 0 }", "Ok Value with: {1:?} & with tag: {0}
");
   ("[ default ]", "[default]");
   ("[ ignore_tail_expr_idents_test_1 ]", "[ignore_tail_expr_idents_test_1]");
   ("[ ignore_tail_expr_idents_test_2 ]", "[ignore_tail_expr_idents_test_2]");
   ("[ sub . sub ]", "[sub.sub]");
   ("[ sub ]", "[sub]");
   ("res : { 0 : ? }", "res: {0:?}
")].
Definition ends_special_flavor_custom_custom : list (N * N * (N * N * string)) :=
  [(5, 2, (5, 19, "")); (5, 7, (5, 18, "")); (6, 2, (6, 17, "")); (6, 8, (6, 16, "")); (7, 22, (7, 30, "")); (7, 44, (7, 46, "")); (7, 48, (9, 2, "")); (8, 7, (8, 12, "")); (11, 2, (11, 24, "")); (11, 7, (11, 23, "")); (12, 2, (12, 17, "")); (12, 8, (12, 16, "")); (13, 8, (13, 20, "")); (13, 31, (13, 33, "")); (13, 35, (13, 37, "")); (13, 39, (23, 2, "")); (14, 13, (14, 17, "")); (14, 14, (14, 16, "")); (16, 13, (18, 6, "")); (17, 18, (17, 22, "")); (17, 19, (17, 21, "")); (20, 13, (20, 41, "")); (20, 24, (20, 26, "")); (20, 28, (20, 30, "")); (20, 35, (20, 39, "")); (20, 36, (20, 38, "")); (22, 8, (22, 12, "")); (22, 9, (22, 11, "")); (25, 2, (25, 40, "")); (25, 7, (25, 39, "")); (25, 17, (25, 38, """my_flavor::sub::sub""")); (26, 2, (26, 17, "")); (26, 8, (26, 16, "")); (27, 9, (27, 21, "")); (27, 32, (27, 34, "")); (27, 36, (27, 38, "")); (27, 40, (39, 2, "")); (28, 13, (28, 17, "")); (28, 14, (28, 16, "")); (30, 13, (32, 6, "")); (31, 18, (31, 22, "")); (31, 19, (31, 21, "")); (34, 15, (34, 25, "")); (34, 19, (34, 23, "")); (34, 20, (34, 22, "")); (36, 13, (36, 29, "")); (36, 14, (36, 28, """res: {res:?}""")); (41, 2, (41, 51, "")); (41, 7, (41, 50, "")); (42, 2, (42, 17, "")); (42, 8, (42, 16, "")); (43, 9, (43, 21, "")); (43, 32, (43, 34, "")); (43, 36, (43, 38, "")); (43, 40, (55, 2, "")); (44, 13, (44, 17, "")); (44, 14, (44, 16, "")); (46, 13, (48, 6, "")); (47, 18, (47, 22, "")); (47, 19, (47, 21, "")); (50, 15, (50, 25, "")); (50, 19, (50, 23, "")); (50, 20, (50, 22, "")); (52, 13, (52, 29, "")); (52, 14, (52, 28, """res: {res:?}""")); (57, 2, (57, 61, "")); (57, 7, (57, 60, "")); (58, 2, (58, 17, "")); (58, 8, (58, 16, "")); (59, 9, (59, 21, "")); (59, 32, (59, 34, "")); (59, 36, (59, 38, "")); (59, 40, (71, 2, "")); (60, 13, (60, 17, "")); (60, 14, (60, 16, "")); (62, 13, (64, 6, "")); (63, 18, (63, 22, "")); (63, 19, (63, 21, "")); (66, 15, (66, 25, "")); (66, 19, (66, 23, "")); (66, 20, (66, 22, "")); (68, 13, (68, 29, "")); (68, 14, (68, 28, """res: {res:?}""")); (73, 2, (73, 8, "")); (74, 8, (74, 10, "")); (74, 11, (83, 2, "")); (75, 9, (75, 16, "")); (75, 27, (75, 29, "")); (76, 9, (76, 15, "")); (76, 22, (76, 24, "")); (77, 10, (77, 16, "")); (77, 23, (77, 25, "")); (78, 10, (78, 17, "")); (78, 24, (78, 26, "")); (79, 10, (79, 16, "")); (79, 23, (79, 25, "")); (80, 10, (80, 17, "")); (80, 24, (80, 26, "")); (81, 10, (81, 16, "")); (81, 23, (81, 25, "")); (82, 10, (82, 17, "")); (82, 24, (82, 26, ""))].
Definition su_special_flavor_custom_custom : setup := mk_setup (mk_features false false false false false "hooq") doc_special_flavor_custom_custom texts_special_flavor_custom_custom strs_special_flavor_custom_custom [] ends_special_flavor_custom_custom "custom".
Definition it_special_flavor_custom_custom_0 : item := let S := at_ "hooq-macros/tests/special/flavor/custom/tests/tests_inner/custom.rs" in
  (IFn [mk_attr false (S 6 1) (MList (mk_path false [mk_seg "allow" [] (S 6 3)]) Parenth [I S "unused" 6 9] (S 6 8))] [] (mk_sig "enresult" (RetPath (mk_path false [mk_seg "Result" [O S "<" 7 40; I S "T" 7 41; O S "," 7 42; G S Parenth [] 7 44; O S ">" 7 46] (S 7 34)])) [I S "fn" 7 1; I S "enresult" 7 4; O S "<" 7 12; I S "T" 7 13; O S ":" 7 14; I S "Debug" 7 16; O S ">" 7 21; G S Parenth [I S "val" 7 23; O S ":" 7 26; I S "T" 7 28] 7 22; O S "-" 7 31; O S ">" 7 32; I S "Result" 7 34; O S "<" 7 40; I S "T" 7 41; O S "," 7 42; G S Parenth [] 7 44; O S ">" 7 46]) (S 7 48) [(SExpr (ECall [] (EPath [] (mk_path false [mk_seg "Ok" [] (S 8 5)])) (S 8 7) [(EPath [] (mk_path false [mk_seg "val" [] (S 8 8)]))] []) None)]).
Definition args_special_flavor_custom_custom_0 : list meta := let S := at_ "hooq-macros/tests/special/flavor/custom/tests/tests_inner/custom.rs" in [(MPath (mk_path false [mk_seg "my_flavor" [] (S 5 8)]))].
Definition rec_special_flavor_custom_custom_0 : list string :=
  ["# [ allow ( unused ) ] fn enresult < T : Debug > ( val : T ) - > Result < T , ( ) > { Ok ( val ) . inspect ( | v | { : : std : : io : : _print (";
   "format_args ! ( ""Ok\sValue\swith:\s{1:?}\s&\swith\stag:\s{0}\n"" , ""[default]"" , v ) ) ; } ) . inspect_err ( | e | { : : std : : io : : _eprint (";
   "format_args ! ( ""Err\sValue\swith:\s{1:?}\s&\swith\stag:\s{0}\n"" , ""[default]"" , e ) ) ; } ) }"].
Definition it_special_flavor_custom_custom_1 : item := let S := at_ "hooq-macros/tests/special/flavor/custom/tests/tests_inner/custom.rs" in
  (IFn [mk_attr false (S 12 1) (MList (mk_path false [mk_seg "allow" [] (S 12 3)]) Parenth [I S "unused" 12 9] (S 12 8))] [] (mk_sig "func" (RetPath (mk_path false [mk_seg "Result" [O S "<" 13 30; G S Parenth [] 13 31; O S "," 13 33; G S Parenth [] 13 35; O S ">" 13 37] (S 13 24)])) [I S "fn" 13 1; I S "func" 13 4; G S Parenth [I S "flag" 13 9; O S ":" 13 13; I S "bool" 13 15] 13 8; O S "-" 13 21; O S ">" 13 22; I S "Result" 13 24; O S "<" 13 30; G S Parenth [] 13 31; O S "," 13 33; G S Parenth [] 13 35; O S ">" 13 37]) (S 13 39) [(SExpr (ETry [] (ECall [] (EPath [] (mk_path false [mk_seg "enresult" [] (S 14 5)])) (S 14 13) [(ETuple [] (S 14 14) [] [])] []) (S 14 17)) (Some (S 14 18))); (SExpr (EIf [] [I S "if" 16 5] (EPath [] (mk_path false [mk_seg "flag" [] (S 16 8)])) (S 16 13) [(SExpr (EReturn [] (S 17 9) (Some (ECall [] (EPath [] (mk_path false [mk_seg "Ok" [] (S 17 16)])) (S 17 18) [(ETuple [] (S 17 19) [] [])] []))) (Some (S 17 22)))] [] None) None); (SLocalInit [] [I S "let" 20 5; I S "_" 20 9; O S "=" 20 11] (EBlock [] [] (S 20 13) [(SExpr (ECall [] (EPath [] (mk_path false [mk_seg "Result" [O S ":" 20 21; O S ":" 20 22; O S "<" 20 23; G S Parenth [] 20 24; O S "," 20 26; G S Parenth [] 20 28; O S ">" 20 30] (S 20 15); mk_seg "Ok" [] (S 20 33)])) (S 20 35) [(ETuple [] (S 20 36) [] [])] []) None)]) [] None [O S ";" 20 41]); (SExpr (ECall [] (EPath [] (mk_path false [mk_seg "Err" [] (S 22 5)])) (S 22 8) [(ETuple [] (S 22 9) [] [])] []) None)]).
Definition args_special_flavor_custom_custom_1 : list meta := let S := at_ "hooq-macros/tests/special/flavor/custom/tests/tests_inner/custom.rs" in [(MPath (mk_path false [mk_seg "my_flavor" [] (S 11 8); mk_seg "sub" [] (S 11 19)]))].
Definition rec_special_flavor_custom_custom_1 : list string :=
  ["# [ allow ( unused ) ] fn func ( flag : bool ) - > Result < ( ) , ( ) > { enresult ( ( ) ) . inspect ( | v | { : : std : : io : : _print ( format_args";
   "! ( ""Ok\sValue\swith:\s{1:?}\s&\swith\stag:\s{0}\n"" , ""[sub]"" , v ) ) ; } ) . inspect_err ( | e | { : : std : : io : : _eprint ( format_args ! (";
   """Err\sValue\swith:\s{1:?}\s&\swith\stag:\s{0}\n"" , ""[sub]"" , e ) ) ; } ) ? ; if flag { return Ok ( ( ) ) . inspect ( | v | { : : std : : io : : _print";
   "( format_args ! ( ""Ok\sValue\swith:\s{1:?}\s&\swith\stag:\s{0}\n"" , ""[sub]"" , v ) ) ; } ) . inspect_err ( | e | { : : std : : io : : _eprint (";
   "format_args ! ( ""Err\sValue\swith:\s{1:?}\s&\swith\stag:\s{0}\n"" , ""[sub]"" , e ) ) ; } ) ; } let _ = { Result : : < ( ) , ( ) > : : Ok ( ( ) ) } ; Err";
   "( ( ) ) . inspect ( | v | { : : std : : io : : _print ( format_args ! ( ""Ok\sValue\swith:\s{1:?}\s&\swith\stag:\s{0}\n"" , ""[sub]"" , v ) ) ; } ) .";
   "inspect_err ( | e | { : : std : : io : : _eprint ( format_args ! ( ""Err\sValue\swith:\s{1:?}\s&\swith\stag:\s{0}\n"" , ""[sub]"" , e ) ) ; } ) }"].
Definition it_special_flavor_custom_custom_2 : item := let S := at_ "hooq-macros/tests/special/flavor/custom/tests/tests_inner/custom.rs" in
  (IFn [mk_attr false (S 26 1) (MList (mk_path false [mk_seg "allow" [] (S 26 3)]) Parenth [I S "unused" 26 9] (S 26 8))] [] (mk_sig "func2" (RetPath (mk_path false [mk_seg "Result" [O S "<" 27 31; G S Parenth [] 27 32; O S "," 27 34; G S Parenth [] 27 36; O S ">" 27 38] (S 27 25)])) [I S "fn" 27 1; I S "func2" 27 4; G S Parenth [I S "flag" 27 10; O S ":" 27 14; I S "bool" 27 16] 27 9; O S "-" 27 22; O S ">" 27 23; I S "Result" 27 25; O S "<" 27 31; G S Parenth [] 27 32; O S "," 27 34; G S Parenth [] 27 36; O S ">" 27 38]) (S 27 40) [(SExpr (ETry [] (ECall [] (EPath [] (mk_path false [mk_seg "enresult" [] (S 28 5)])) (S 28 13) [(ETuple [] (S 28 14) [] [])] []) (S 28 17)) (Some (S 28 18))); (SExpr (EIf [] [I S "if" 30 5] (EPath [] (mk_path false [mk_seg "flag" [] (S 30 8)])) (S 30 13) [(SExpr (EReturn [] (S 31 9) (Some (ECall [] (EPath [] (mk_path false [mk_seg "Ok" [] (S 31 16)])) (S 31 18) [(ETuple [] (S 31 19) [] [])] []))) (Some (S 31 22)))] [] None) None); (SLocalInit [] [I S "let" 34 5; I S "res" 34 9; O S "=" 34 13] (EBlock [] [] (S 34 15) [(SExpr (ECall [] (EPath [] (mk_path false [mk_seg "Ok" [] (S 34 17)])) (S 34 19) [(ETuple [] (S 34 20) [] [])] []) None)]) [] None [O S ";" 34 25]); (SMacro [] (Mac (mk_path false [mk_seg "println" [] (S 36 5)]) Parenth (S 36 13) [L S (LStr "res: {res:?}") 36 14] (Some [VExpr (ELit [] (LStr "res: {res:?}") (S 36 14)) []])) [O S ";" 36 29]); (SExpr (EPath [] (mk_path false [mk_seg "res" [] (S 38 5)])) None)]).
Definition args_special_flavor_custom_custom_2 : list meta := let S := at_ "hooq-macros/tests/special/flavor/custom/tests/tests_inner/custom.rs" in [(MNameValue (mk_path false [mk_seg "flavor" [] (S 25 8)]) (VStr "my_flavor::sub::sub" (S 25 17)))].
Definition rec_special_flavor_custom_custom_2 : list string :=
  ["# [ allow ( unused ) ] fn func2 ( flag : bool ) - > Result < ( ) , ( ) > { enresult ( ( ) ) . inspect ( | v | { : : std : : io : : _print (";
   "format_args ! ( ""Ok\sValue\swith:\s{1:?}\s&\swith\stag:\s{0}\n"" , ""[sub.sub]"" , v ) ) ; } ) . inspect_err ( | e | { : : std : : io : : _eprint (";
   "format_args ! ( ""Err\sValue\swith:\s{1:?}\s&\swith\stag:\s{0}\n"" , ""[sub.sub]"" , e ) ) ; } ) ? ; if flag { return Ok ( ( ) ) . inspect ( | v | { : :";
   "std : : io : : _print ( format_args ! ( ""Ok\sValue\swith:\s{1:?}\s&\swith\stag:\s{0}\n"" , ""[sub.sub]"" , v ) ) ; } ) . inspect_err ( | e | { : : std :";
   ": io : : _eprint ( format_args ! ( ""Err\sValue\swith:\s{1:?}\s&\swith\stag:\s{0}\n"" , ""[sub.sub]"" , e ) ) ; } ) ; } let res = { Ok ( ( ) ) . inspect (";
   "| v | { : : std : : io : : _print ( format_args ! ( ""Ok\sValue\swith:\s{1:?}\s&\swith\stag:\s{0}\n"" , ""[sub.sub]"" , v ) ) ; } ) . inspect_err ( | e |";
   "{ : : std : : io : : _eprint ( format_args ! ( ""Err\sValue\swith:\s{1:?}\s&\swith\stag:\s{0}\n"" , ""[sub.sub]"" , e ) ) ; } ) } ; { : : std : : io : :";
   "_print ( format_args ! ( ""res:\s{0:?}\n"" , res ) ) ; } ; res . inspect ( | v | { : : std : : io : : _print ( format_args ! (";
   """Ok\sValue\swith:\s{1:?}\s&\swith\stag:\s{0}\n"" , ""[sub.sub]"" , v ) ) ; } ) . inspect_err ( | e | { : : std : : io : : _eprint ( format_args ! (";
   """Err\sValue\swith:\s{1:?}\s&\swith\stag:\s{0}\n"" , ""[sub.sub]"" , e ) ) ; } ) }"].
Definition it_special_flavor_custom_custom_3 : item := let S := at_ "hooq-macros/tests/special/flavor/custom/tests/tests_inner/custom.rs" in
  (IFn [mk_attr false (S 42 1) (MList (mk_path false [mk_seg "allow" [] (S 42 3)]) Parenth [I S "unused" 42 9] (S 42 8))] [] (mk_sig "func3" (RetPath (mk_path false [mk_seg "Result" [O S "<" 43 31; G S Parenth [] 43 32; O S "," 43 34; G S Parenth [] 43 36; O S ">" 43 38] (S 43 25)])) [I S "fn" 43 1; I S "func3" 43 4; G S Parenth [I S "flag" 43 10; O S ":" 43 14; I S "bool" 43 16] 43 9; O S "-" 43 22; O S ">" 43 23; I S "Result" 43 25; O S "<" 43 31; G S Parenth [] 43 32; O S "," 43 34; G S Parenth [] 43 36; O S ">" 43 38]) (S 43 40) [(SExpr (ETry [] (ECall [] (EPath [] (mk_path false [mk_seg "enresult" [] (S 44 5)])) (S 44 13) [(ETuple [] (S 44 14) [] [])] []) (S 44 17)) (Some (S 44 18))); (SExpr (EIf [] [I S "if" 46 5] (EPath [] (mk_path false [mk_seg "flag" [] (S 46 8)])) (S 46 13) [(SExpr (EReturn [] (S 47 9) (Some (ECall [] (EPath [] (mk_path false [mk_seg "Ok" [] (S 47 16)])) (S 47 18) [(ETuple [] (S 47 19) [] [])] []))) (Some (S 47 22)))] [] None) None); (SLocalInit [] [I S "let" 50 5; I S "res" 50 9; O S "=" 50 13] (EBlock [] [] (S 50 15) [(SExpr (ECall [] (EPath [] (mk_path false [mk_seg "Ok" [] (S 50 17)])) (S 50 19) [(ETuple [] (S 50 20) [] [])] []) None)]) [] None [O S ";" 50 25]); (SMacro [] (Mac (mk_path false [mk_seg "println" [] (S 52 5)]) Parenth (S 52 13) [L S (LStr "res: {res:?}") 52 14] (Some [VExpr (ELit [] (LStr "res: {res:?}") (S 52 14)) []])) [O S ";" 52 29]); (SExpr (EPath [] (mk_path false [mk_seg "res" [] (S 54 5)])) None)]).
Definition args_special_flavor_custom_custom_3 : list meta := let S := at_ "hooq-macros/tests/special/flavor/custom/tests/tests_inner/custom.rs" in [(MPath (mk_path false [mk_seg "my_flavor" [] (S 41 8); mk_seg "ignore_tail_expr_idents_test_1" [] (S 41 19)]))].
Definition rec_special_flavor_custom_custom_3 : list string :=
  ["# [ allow ( unused ) ] fn func3 ( flag : bool ) - > Result < ( ) , ( ) > { enresult ( ( ) ) . inspect ( | v | { : : std : : io : : _print (";
   "format_args ! ( ""Ok\sValue\swith:\s{1:?}\s&\swith\stag:\s{0}\n"" , ""[ignore_tail_expr_idents_test_1]"" , v ) ) ; } ) . inspect_err ( | e | { : : std : :";
   "io : : _eprint ( format_args ! ( ""Err\sValue\swith:\s{1:?}\s&\swith\stag:\s{0}\n"" , ""[ignore_tail_expr_idents_test_1]"" , e ) ) ; } ) ? ; if flag {";
   "return Ok ( ( ) ) ; } let res = { Ok ( ( ) ) } ; { : : std : : io : : _print ( format_args ! ( ""res:\s{0:?}\n"" , res ) ) ; } ; res . inspect ( | v | {";
   ": : std : : io : : _print ( format_args ! ( ""Ok\sValue\swith:\s{1:?}\s&\swith\stag:\s{0}\n"" , ""[ignore_tail_expr_idents_test_1]"" , v ) ) ; } ) .";
   "inspect_err ( | e | { : : std : : io : : _eprint ( format_args ! ( ""Err\sValue\swith:\s{1:?}\s&\swith\stag:\s{0}\n"" ,";
   """[ignore_tail_expr_idents_test_1]"" , e ) ) ; } ) }"].
Definition it_special_flavor_custom_custom_4 : item := let S := at_ "hooq-macros/tests/special/flavor/custom/tests/tests_inner/custom.rs" in
  (IFn [mk_attr false (S 58 1) (MList (mk_path false [mk_seg "allow" [] (S 58 3)]) Parenth [I S "unused" 58 9] (S 58 8))] [] (mk_sig "func4" (RetPath (mk_path false [mk_seg "Result" [O S "<" 59 31; G S Parenth [] 59 32; O S "," 59 34; G S Parenth [] 59 36; O S ">" 59 38] (S 59 25)])) [I S "fn" 59 1; I S "func4" 59 4; G S Parenth [I S "flag" 59 10; O S ":" 59 14; I S "bool" 59 16] 59 9; O S "-" 59 22; O S ">" 59 23; I S "Result" 59 25; O S "<" 59 31; G S Parenth [] 59 32; O S "," 59 34; G S Parenth [] 59 36; O S ">" 59 38]) (S 59 40) [(SExpr (ETry [] (ECall [] (EPath [] (mk_path false [mk_seg "enresult" [] (S 60 5)])) (S 60 13) [(ETuple [] (S 60 14) [] [])] []) (S 60 17)) (Some (S 60 18))); (SExpr (EIf [] [I S "if" 62 5] (EPath [] (mk_path false [mk_seg "flag" [] (S 62 8)])) (S 62 13) [(SExpr (EReturn [] (S 63 9) (Some (ECall [] (EPath [] (mk_path false [mk_seg "Ok" [] (S 63 16)])) (S 63 18) [(ETuple [] (S 63 19) [] [])] []))) (Some (S 63 22)))] [] None) None); (SLocalInit [] [I S "let" 66 5; I S "res" 66 9; O S "=" 66 13] (EBlock [] [] (S 66 15) [(SExpr (ECall [] (EPath [] (mk_path false [mk_seg "Ok" [] (S 66 17)])) (S 66 19) [(ETuple [] (S 66 20) [] [])] []) None)]) [] None [O S ";" 66 25]); (SMacro [] (Mac (mk_path false [mk_seg "println" [] (S 68 5)]) Parenth (S 68 13) [L S (LStr "res: {res:?}") 68 14] (Some [VExpr (ELit [] (LStr "res: {res:?}") (S 68 14)) []])) [O S ";" 68 29]); (SExpr (EPath [] (mk_path false [mk_seg "res" [] (S 70 5)])) None)]).
Definition args_special_flavor_custom_custom_4 : list meta := let S := at_ "hooq-macros/tests/special/flavor/custom/tests/tests_inner/custom.rs" in [(MPath (mk_path false [mk_seg "my_flavor" [] (S 57 8); mk_seg "sub" [] (S 57 19); mk_seg "sub" [] (S 57 24); mk_seg "ignore_tail_expr_idents_test_2" [] (S 57 29)]))].
Definition rec_special_flavor_custom_custom_4 : list string :=
  ["# [ allow ( unused ) ] fn func4 ( flag : bool ) - > Result < ( ) , ( ) > { enresult ( ( ) ) . inspect ( | v | { : : std : : io : : _print (";
   "format_args ! ( ""Ok\sValue\swith:\s{1:?}\s&\swith\stag:\s{0}\n"" , ""[ignore_tail_expr_idents_test_2]"" , v ) ) ; } ) . inspect_err ( | e | { : : std : :";
   "io : : _eprint ( format_args ! ( ""Err\sValue\swith:\s{1:?}\s&\swith\stag:\s{0}\n"" , ""[ignore_tail_expr_idents_test_2]"" , e ) ) ; } ) ? ; if flag {";
   "return Ok ( ( ) ) ; } let res = { Ok ( ( ) ) } ; { : : std : : io : : _print ( format_args ! ( ""res:\s{0:?}\n"" , res ) ) ; } ; res . inspect ( | v | {";
   ": : std : : io : : _print ( format_args ! ( ""Ok\sValue\swith:\s{1:?}\s&\swith\stag:\s{0}\n"" , ""[ignore_tail_expr_idents_test_2]"" , v ) ) ; } ) .";
   "inspect_err ( | e | { : : std : : io : : _eprint ( format_args ! ( ""Err\sValue\swith:\s{1:?}\s&\swith\stag:\s{0}\n"" ,";
   """[ignore_tail_expr_idents_test_2]"" , e ) ) ; } ) }"].
(** enresult *)
Example recorded_special_flavor_custom_custom_0 : expanded su_special_flavor_custom_custom args_special_flavor_custom_custom_0 it_special_flavor_custom_custom_0 = words rec_special_flavor_custom_custom_0.
Proof. vm_compute. reflexivity. Qed.
(** func *)
Example recorded_special_flavor_custom_custom_1 : expanded su_special_flavor_custom_custom args_special_flavor_custom_custom_1 it_special_flavor_custom_custom_1 = words rec_special_flavor_custom_custom_1.
Proof. vm_compute. reflexivity. Qed.
(** func2 *)
Example recorded_special_flavor_custom_custom_2 : expanded su_special_flavor_custom_custom args_special_flavor_custom_custom_2 it_special_flavor_custom_custom_2 = words rec_special_flavor_custom_custom_2.
Proof. vm_compute. reflexivity. Qed.
(** func3 *)
Example recorded_special_flavor_custom_custom_3 : expanded su_special_flavor_custom_custom args_special_flavor_custom_custom_3 it_special_flavor_custom_custom_3 = words rec_special_flavor_custom_custom_3.
Proof. vm_compute. reflexivity. Qed.
(** func4 *)
Example recorded_special_flavor_custom_custom_4 : expanded su_special_flavor_custom_custom args_special_flavor_custom_custom_4 it_special_flavor_custom_custom_4 = words rec_special_flavor_custom_custom_4.
Proof. vm_compute. reflexivity. Qed.
(** ** hooq-macros/tests/special/flavor/default/tests/tests_inner/default.rs *)
Definition doc_special_flavor_default_default : list (string * ftable) := [("default", FTable (mk_tcore [] (Some ".inspect(|v| println!(""Ok Value with: {v:?} & with tag: {}"", $tag))
.inspect_err(|e| eprintln!(""Err Value with: {e:?} & with tag: {}"", $tag))") None None None None None [("tag", """[default]""")]) [])].
Definition texts_special_flavor_default_default : list (string * list tt) := let S := at_ "" in [("""[default]""", [L S (LStr "[default]") 1 1]);
  (".inspect(|v| println!(""Ok Value with: {v:?} & with tag: {}"", $tag))
.inspect_err(|e| eprintln!(""Err Value with: {e:?} & with tag: {}"", $tag))", [O S "." 1 1; I S "inspect" 1 2; G S Parenth [O S "|" 1 10; I S "v" 1 11; O S "|" 1 12; I S "println" 1 14; O S "!" 1 21; G S Parenth [L S (LStr "Ok Value with: {v:?} & with tag: {}") 1 23; O S "," 1 60; O S "$" 1 62; I S "tag" 1 63] 1 22] 1 9; O S "." 2 1; I S "inspect_err" 2 2; G S Parenth [O S "|" 2 14; I S "e" 2 15; O S "|" 2 16; I S "eprintln" 2 18; O S "!" 2 26; G S Parenth [L S (LStr "Err Value with: {e:?} & with tag: {}") 2 28; O S "," 2 66; O S "$" 2 68; I S "tag" 2 69] 2 27] 2 13])].
Definition strs_special_flavor_default_default : list (string * string) :=
  [("Err Value with : { 1 : ? } & with tag : { 0 }", "Err Value with: {1:?} & with tag: {0}
");
   ("Ok Value with : { 1 : ? } & with tag : { 0 }", "Ok Value with: {1:?} & with tag: {0}
");
   ("[ default ]", "[default]")].
Definition ends_special_flavor_default_default : list (N * N * (N * N * string)) :=
  [(5, 2, (5, 8, "")); (6, 2, (6, 17, "")); (6, 8, (6, 16, "")); (7, 22, (7, 30, "")); (7, 44, (7, 46, "")); (7, 48, (9, 2, "")); (8, 7, (8, 12, "")); (11, 2, (11, 8, "")); (12, 2, (12, 17, "")); (12, 8, (12, 16, "")); (13, 8, (13, 20, "")); (13, 31, (13, 33, "")); (13, 35, (13, 37, "")); (13, 39, (21, 2, "")); (14, 13, (14, 17, "")); (14, 14, (14, 16, "")); (16, 13, (18, 6, "")); (17, 19, (17, 23, "")); (17, 20, (17, 22, "")); (20, 8, (20, 12, "")); (20, 9, (20, 11, "")); (23, 2, (23, 8, "")); (24, 8, (24, 10, "")); (24, 11, (26, 2, "")); (25, 9, (25, 16, "")); (25, 27, (25, 29, ""))].
Definition su_special_flavor_default_default : setup := mk_setup (mk_features false false false false false "hooq") doc_special_flavor_default_default texts_special_flavor_default_default strs_special_flavor_default_default [] ends_special_flavor_default_default "default".
Definition it_special_flavor_default_default_0 : item := let S := at_ "hooq-macros/tests/special/flavor/default/tests/tests_inner/default.rs" in
  (IFn [mk_attr false (S 6 1) (MList (mk_path false [mk_seg "allow" [] (S 6 3)]) Parenth [I S "unused" 6 9] (S 6 8))] [] (mk_sig "enresult" (RetPath (mk_path false [mk_seg "Result" [O S "<" 7 40; I S "T" 7 41; O S "," 7 42; G S Parenth [] 7 44; O S ">" 7 46] (S 7 34)])) [I S "fn" 7 1; I S "enresult" 7 4; O S "<" 7 12; I S "T" 7 13; O S ":" 7 14; I S "Debug" 7 16; O S ">" 7 21; G S Parenth [I S "val" 7 23; O S ":" 7 26; I S "T" 7 28] 7 22; O S "-" 7 31; O S ">" 7 32; I S "Result" 7 34; O S "<" 7 40; I S "T" 7 41; O S "," 7 42; G S Parenth [] 7 44; O S ">" 7 46]) (S 7 48) [(SExpr (ECall [] (EPath [] (mk_path false [mk_seg "Ok" [] (S 8 5)])) (S 8 7) [(EPath [] (mk_path false [mk_seg "val" [] (S 8 8)]))] []) None)]).
Definition args_special_flavor_default_default_0 : list meta := let S := at_ "hooq-macros/tests/special/flavor/default/tests/tests_inner/default.rs" in [].
Definition rec_special_flavor_default_default_0 : list string :=
  ["# [ allow ( unused ) ] fn enresult < T : Debug > ( val : T ) - > Result < T , ( ) > { Ok ( val ) }"].
Definition it_special_flavor_default_default_1 : item := let S := at_ "hooq-macros/tests/special/flavor/default/tests/tests_inner/default.rs" in
  (IFn [mk_attr false (S 12 1) (MList (mk_path false [mk_seg "allow" [] (S 12 3)]) Parenth [I S "unused" 12 9] (S 12 8))] [] (mk_sig "func" (RetPath (mk_path false [mk_seg "Result" [O S "<" 13 30; G S Parenth [] 13 31; O S "," 13 33; G S Parenth [] 13 35; O S ">" 13 37] (S 13 24)])) [I S "fn" 13 1; I S "func" 13 4; G S Parenth [I S "flag" 13 9; O S ":" 13 13; I S "bool" 13 15] 13 8; O S "-" 13 21; O S ">" 13 22; I S "Result" 13 24; O S "<" 13 30; G S Parenth [] 13 31; O S "," 13 33; G S Parenth [] 13 35; O S ">" 13 37]) (S 13 39) [(SExpr (ETry [] (ECall [] (EPath [] (mk_path false [mk_seg "enresult" [] (S 14 5)])) (S 14 13) [(ETuple [] (S 14 14) [] [])] []) (S 14 17)) (Some (S 14 18))); (SExpr (EIf [] [I S "if" 16 5] (EPath [] (mk_path false [mk_seg "flag" [] (S 16 8)])) (S 16 13) [(SExpr (EReturn [] (S 17 9) (Some (ECall [] (EPath [] (mk_path false [mk_seg "Err" [] (S 17 16)])) (S 17 19) [(ETuple [] (S 17 20) [] [])] []))) (Some (S 17 23)))] [] None) None); (SExpr (ECall [] (EPath [] (mk_path false [mk_seg "Err" [] (S 20 5)])) (S 20 8) [(ETuple [] (S 20 9) [] [])] []) None)]).
Definition args_special_flavor_default_default_1 : list meta := let S := at_ "hooq-macros/tests/special/flavor/default/tests/tests_inner/default.rs" in [].
Definition rec_special_flavor_default_default_1 : list string :=
  ["# [ allow ( unused ) ] fn func ( flag : bool ) - > Result < ( ) , ( ) > { enresult ( ( ) ) . inspect ( | v | { : : std : : io : : _print ( format_args";
   "! ( ""Ok\sValue\swith:\s{1:?}\s&\swith\stag:\s{0}\n"" , ""[default]"" , v ) ) ; } ) . inspect_err ( | e | { : : std : : io : : _eprint ( format_args ! (";
   """Err\sValue\swith:\s{1:?}\s&\swith\stag:\s{0}\n"" , ""[default]"" , e ) ) ; } ) ? ; if flag { return Err ( ( ) ) . inspect ( | v | { : : std : : io : :";
   "_print ( format_args ! ( ""Ok\sValue\swith:\s{1:?}\s&\swith\stag:\s{0}\n"" , ""[default]"" , v ) ) ; } ) . inspect_err ( | e | { : : std : : io : :";
   "_eprint ( format_args ! ( ""Err\sValue\swith:\s{1:?}\s&\swith\stag:\s{0}\n"" , ""[default]"" , e ) ) ; } ) ; } Err ( ( ) ) . inspect ( | v | { : : std : :";
   "io : : _print ( format_args ! ( ""Ok\sValue\swith:\s{1:?}\s&\swith\stag:\s{0}\n"" , ""[default]"" , v ) ) ; } ) . inspect_err ( | e | { : : std : : io : :";
   "_eprint ( format_args ! ( ""Err\sValue\swith:\s{1:?}\s&\swith\stag:\s{0}\n"" , ""[default]"" , e ) ) ; } ) }"].
(** enresult *)
Example recorded_special_flavor_default_default_0 : expanded su_special_flavor_default_default args_special_flavor_default_default_0 it_special_flavor_default_default_0 = words rec_special_flavor_default_default_0.
Proof. vm_compute. reflexivity. Qed.
(** func *)
Example recorded_special_flavor_default_default_1 : expanded su_special_flavor_default_default args_special_flavor_default_default_1 it_special_flavor_default_default_1 = words rec_special_flavor_default_default_1.
Proof. vm_compute. reflexivity. Qed.
(** ** hooq-macros/tests/special/flavor/empty.rs *)
Definition doc_special_flavor_empty : list (string * ftable) := [].
Definition texts_special_flavor_empty : list (string * list tt) := let S := at_ "" in [].
Definition strs_special_flavor_empty : list (string * string) :=
  [].
Definition ends_special_flavor_empty : list (N * N * (N * N * string)) :=
  [(3, 2, (3, 26, "")); (3, 7, (3, 25, "")); (3, 17, (3, 24, """empty""")); (4, 15, (4, 23, "")); (4, 37, (4, 39, "")); (4, 41, (6, 2, "")); (5, 7, (5, 12, "")); (8, 2, (8, 15, "")); (8, 7, (8, 14, "")); (9, 8, (9, 20, "")); (9, 31, (9, 33, "")); (9, 35, (9, 37, "")); (9, 39, (17, 2, "")); (10, 13, (10, 17, "")); (10, 14, (10, 16, "")); (12, 13, (14, 6, "")); (13, 19, (13, 23, "")); (13, 20, (13, 22, "")); (16, 8, (16, 12, "")); (16, 9, (16, 11, "")); (19, 2, (19, 8, "")); (20, 8, (20, 10, "")); (20, 11, (22, 2, "")); (21, 9, (21, 16, "")); (21, 27, (21, 29, ""))].
Definition su_special_flavor_empty : setup := mk_setup (mk_features false false true false false "hooq") doc_special_flavor_empty texts_special_flavor_empty strs_special_flavor_empty [] ends_special_flavor_empty "empty".
Definition it_special_flavor_empty_0 : item := let S := at_ "hooq-macros/tests/special/flavor/empty.rs" in
  (IFn [] [] (mk_sig "enresult" (RetPath (mk_path false [mk_seg "Result" [O S "<" 4 33; I S "T" 4 34; O S "," 4 35; G S Parenth [] 4 37; O S ">" 4 39] (S 4 27)])) [I S "fn" 4 1; I S "enresult" 4 4; O S "<" 4 12; I S "T" 4 13; O S ">" 4 14; G S Parenth [I S "val" 4 16; O S ":" 4 19; I S "T" 4 21] 4 15; O S "-" 4 24; O S ">" 4 25; I S "Result" 4 27; O S "<" 4 33; I S "T" 4 34; O S "," 4 35; G S Parenth [] 4 37; O S ">" 4 39]) (S 4 41) [(SExpr (ECall [] (EPath [] (mk_path false [mk_seg "Ok" [] (S 5 5)])) (S 5 7) [(EPath [] (mk_path false [mk_seg "val" [] (S 5 8)]))] []) None)]).
Definition args_special_flavor_empty_0 : list meta := let S := at_ "hooq-macros/tests/special/flavor/empty.rs" in [(MNameValue (mk_path false [mk_seg "flavor" [] (S 3 8)]) (VStr "empty" (S 3 17)))].
Definition rec_special_flavor_empty_0 : list string :=
  ["fn enresult < T > ( val : T ) - > Result < T , ( ) > { Ok ( val ) }"].
Definition it_special_flavor_empty_1 : item := let S := at_ "hooq-macros/tests/special/flavor/empty.rs" in
  (IFn [] [] (mk_sig "func" (RetPath (mk_path false [mk_seg "Result" [O S "<" 9 30; G S Parenth [] 9 31; O S "," 9 33; G S Parenth [] 9 35; O S ">" 9 37] (S 9 24)])) [I S "fn" 9 1; I S "func" 9 4; G S Parenth [I S "flag" 9 9; O S ":" 9 13; I S "bool" 9 15] 9 8; O S "-" 9 21; O S ">" 9 22; I S "Result" 9 24; O S "<" 9 30; G S Parenth [] 9 31; O S "," 9 33; G S Parenth [] 9 35; O S ">" 9 37]) (S 9 39) [(SExpr (ETry [] (ECall [] (EPath [] (mk_path false [mk_seg "enresult" [] (S 10 5)])) (S 10 13) [(ETuple [] (S 10 14) [] [])] []) (S 10 17)) (Some (S 10 18))); (SExpr (EIf [] [I S "if" 12 5] (EPath [] (mk_path false [mk_seg "flag" [] (S 12 8)])) (S 12 13) [(SExpr (EReturn [] (S 13 9) (Some (ECall [] (EPath [] (mk_path false [mk_seg "Err" [] (S 13 16)])) (S 13 19) [(ETuple [] (S 13 20) [] [])] []))) (Some (S 13 23)))] [] None) None); (SExpr (ECall [] (EPath [] (mk_path false [mk_seg "Err" [] (S 16 5)])) (S 16 8) [(ETuple [] (S 16 9) [] [])] []) None)]).
Definition args_special_flavor_empty_1 : list meta := let S := at_ "hooq-macros/tests/special/flavor/empty.rs" in [(MPath (mk_path false [mk_seg "empty" [] (S 8 8)]))].
Definition rec_special_flavor_empty_1 : list string :=
  ["fn func ( flag : bool ) - > Result < ( ) , ( ) > { enresult ( ( ) ) ? ; if flag { return Err ( ( ) ) ; } Err ( ( ) ) }"].
(** enresult *)
Example recorded_special_flavor_empty_0 : expanded su_special_flavor_empty args_special_flavor_empty_0 it_special_flavor_empty_0 = words rec_special_flavor_empty_0.
Proof. vm_compute. reflexivity. Qed.
(** func *)
Example recorded_special_flavor_empty_1 : expanded su_special_flavor_empty args_special_flavor_empty_1 it_special_flavor_empty_1 = words rec_special_flavor_empty_1.
Proof. vm_compute. reflexivity. Qed.
(** ** hooq-macros/tests/special/flavor/hook.rs *)
Definition doc_special_flavor_hook : list (string * ftable) := [].
Definition texts_special_flavor_hook : list (string * list tt) := let S := at_ "" in [].
Definition strs_special_flavor_hook : list (string * string) :=
  [("< hooq_root > / tests / special / flavor / hook . rs", "<hooq_root>/tests/special/flavor/hook.rs");
   ("hook . rs", "hook.rs")].
Definition ends_special_flavor_hook : list (N * N * (N * N * string)) :=
  [(1, 18, (18, 2, "")); (2, 26, (4, 6, "")); (3, 16, (3, 58, "")); (3, 37, (3, 39, "")); (6, 44, (17, 6, "")); (7, 16, (7, 58, "")); (7, 37, (7, 39, "")); (7, 67, (16, 10, "")); (8, 25, (8, 27, "")); (9, 22, (9, 34, "")); (9, 23, (9, 33, """{info:?}""")); (11, 24, (11, 29, "")); (11, 56, (11, 64, "")); (11, 57, (11, 63, """hoge""")); (11, 65, (13, 14, "")); (12, 26, (12, 41, "")); (12, 27, (12, 40, """hoge: {val}""")); (20, 12, (39, 2, "")); (23, 6, (23, 73, "")); (23, 11, (23, 72, "")); (23, 21, (23, 54, "")); (23, 65, (23, 71, """hook""")); (24, 6, (24, 26, "")); (24, 20, (24, 25, """val""")); (25, 26, (25, 48, "")); (28, 5, (30, 6, "")); (32, 6, (32, 18, "")); (32, 11, (32, 17, "")); (33, 27, (33, 49, "")); (36, 5, (38, 6, "")); (41, 13, (61, 2, "")); (46, 6, (46, 18, "")); (46, 11, (46, 17, "")); (47, 26, (47, 48, "")); (50, 5, (52, 6, "")); (54, 6, (54, 29, "")); (54, 11, (54, 28, "")); (54, 21, (54, 27, """hook""")); (55, 27, (55, 49, "")); (58, 5, (60, 6, "")); (63, 2, (63, 8, "")); (64, 8, (64, 10, "")); (64, 11, (70, 2, "")); (65, 39, (65, 43, "")); (66, 21, (66, 29, "")); (66, 36, (66, 38, "")); (67, 22, (67, 30, "")); (67, 37, (67, 39, "")); (68, 22, (68, 30, "")); (68, 37, (68, 39, "")); (69, 23, (69, 31, "")); (69, 38, (69, 40, ""))].
Definition su_special_flavor_hook : setup := mk_setup (mk_features false false true false false "hooq") doc_special_flavor_hook texts_special_flavor_hook strs_special_flavor_hook [] ends_special_flavor_hook "hook".
Definition it_special_flavor_hook_0 : item := let S := at_ "<hooq_root>/tests/special/flavor/hook.rs" in
  (IFn [mk_attr false (S 24 5) (MNameValue (mk_path false [mk_seg "hooq" [] (S 24 7); mk_seg "hoge" [] (S 24 13)]) (VStr "val" (S 24 20)))] [I S "pub" 25 5] (mk_sig "use_hook" (RetPath (mk_path false [mk_seg "Result" [O S "<" 25 58; I S "T" 25 59; O S "," 25 60; I S "E" 25 62; O S ">" 25 63] (S 25 52)])) [I S "fn" 25 9; I S "use_hook" 25 12; O S "<" 25 20; I S "T" 25 21; O S "," 25 22; I S "E" 25 24; O S ">" 25 25; G S Parenth [I S "result" 25 27; O S ":" 25 33; I S "Result" 25 35; O S "<" 25 41; I S "T" 25 42; O S "," 25 43; I S "E" 25 45; O S ">" 25 46] 25 26; O S "-" 25 49; O S ">" 25 50; I S "Result" 25 52; O S "<" 25 58; I S "T" 25 59; O S "," 25 60; I S "E" 25 62; O S ">" 25 63; I S "where" 26 5; I S "E" 27 9; O S ":" 27 10; I S "std" 27 12; O S ":" 27 15; O S ":" 27 16; I S "fmt" 27 17; O S ":" 27 20; O S ":" 27 21; I S "Debug" 27 22; O S "," 27 27]) (S 28 5) [(SExpr (EPath [] (mk_path false [mk_seg "result" [] (S 29 9)])) None)]).
Definition args_special_flavor_hook_0 : list meta := let S := at_ "<hooq_root>/tests/special/flavor/hook.rs" in [(MList (mk_path false [mk_seg "trait_use" [] (S 23 12)]) Parenth [I S "super" 23 22; O S ":" 23 27; O S ":" 23 28; I S "trait_define" 23 29; O S ":" 23 41; O S ":" 23 42; I S "CustomHook" 23 43] (S 23 21)); (MNameValue (mk_path false [mk_seg "flavor" [] (S 23 56)]) (VStr "hook" (S 23 65)))].
Definition rec_special_flavor_hook_0 : list string :=
  ["# [ allow ( unused ) ] use super : : trait_define : : CustomHook as _ ; pub fn use_hook < T , E > ( result : Result < T , E > ) - > Result < T , E >";
   "where E : std : : fmt : : Debug , { result . hook ( | | : : hooq : : HooqMeta { line : 29usize , column : 9usize , path :";
   """<hooq_root>/tests/special/flavor/hook.rs"" , file : ""hook.rs"" , source_str : ""result"" , count : ""1st\stail\sexpr"" , bindings : : : std : : collections";
   ": : HashMap : : from ( [ ( : : std : : string : : ToString : : to_string ( ""hoge"" ) , { let expr = : : std : : string : : ToString : : to_string (";
   """\""val\"""" ) ; let value : : : std : : rc : : Rc < dyn : : std : : any : : Any > = : : std : : rc : : Rc : : new ( ""val"" ) ; : : hooq : :";
   "BindingPayload { expr , value } } ) ] ) } ) }"].
Definition it_special_flavor_hook_1 : item := let S := at_ "<hooq_root>/tests/special/flavor/hook.rs" in
  (IFn [] [I S "pub" 33 5] (mk_sig "use_hook2" (RetPath (mk_path false [mk_seg "Result" [O S "<" 33 59; I S "T" 33 60; O S "," 33 61; I S "E" 33 63; O S ">" 33 64] (S 33 53)])) [I S "fn" 33 9; I S "use_hook2" 33 12; O S "<" 33 21; I S "T" 33 22; O S "," 33 23; I S "E" 33 25; O S ">" 33 26; G S Parenth [I S "result" 33 28; O S ":" 33 34; I S "Result" 33 36; O S "<" 33 42; I S "T" 33 43; O S "," 33 44; I S "E" 33 46; O S ">" 33 47] 33 27; O S "-" 33 50; O S ">" 33 51; I S "Result" 33 53; O S "<" 33 59; I S "T" 33 60; O S "," 33 61; I S "E" 33 63; O S ">" 33 64; I S "where" 34 5; I S "E" 35 9; O S ":" 35 10; I S "std" 35 12; O S ":" 35 15; O S ":" 35 16; I S "fmt" 35 17; O S ":" 35 20; O S ":" 35 21; I S "Debug" 35 22; O S "," 35 27]) (S 36 5) [(SExpr (EPath [] (mk_path false [mk_seg "result" [] (S 37 9)])) None)]).
Definition args_special_flavor_hook_1 : list meta := let S := at_ "<hooq_root>/tests/special/flavor/hook.rs" in [(MPath (mk_path false [mk_seg "hook" [] (S 32 12)]))].
Definition rec_special_flavor_hook_1 : list string :=
  ["pub fn use_hook2 < T , E > ( result : Result < T , E > ) - > Result < T , E > where E : std : : fmt : : Debug , { result . hook ( | | : : hooq : :";
   "HooqMeta { line : 37usize , column : 9usize , path : ""<hooq_root>/tests/special/flavor/hook.rs"" , file : ""hook.rs"" , source_str : ""result"" , count :";
   """1st\stail\sexpr"" , bindings : : : std : : collections : : HashMap : : from ( [ ] ) } ) }"].
Definition it_special_flavor_hook_2 : item := let S := at_ "<hooq_root>/tests/special/flavor/hook.rs" in
  (IFn [] [I S "pub" 47 5] (mk_sig "use_hook" (RetPath (mk_path false [mk_seg "Result" [O S "<" 47 58; I S "T" 47 59; O S "," 47 60; I S "E" 47 62; O S ">" 47 63] (S 47 52)])) [I S "fn" 47 9; I S "use_hook" 47 12; O S "<" 47 20; I S "T" 47 21; O S "," 47 22; I S "E" 47 24; O S ">" 47 25; G S Parenth [I S "result" 47 27; O S ":" 47 33; I S "Result" 47 35; O S "<" 47 41; I S "T" 47 42; O S "," 47 43; I S "E" 47 45; O S ">" 47 46] 47 26; O S "-" 47 49; O S ">" 47 50; I S "Result" 47 52; O S "<" 47 58; I S "T" 47 59; O S "," 47 60; I S "E" 47 62; O S ">" 47 63; I S "where" 48 5; I S "E" 49 9; O S ":" 49 10; I S "std" 49 12; O S ":" 49 15; O S ":" 49 16; I S "fmt" 49 17; O S ":" 49 20; O S ":" 49 21; I S "Debug" 49 22; O S "," 49 27]) (S 50 5) [(SExpr (EPath [] (mk_path false [mk_seg "result" [] (S 51 9)])) None)]).
Definition args_special_flavor_hook_2 : list meta := let S := at_ "<hooq_root>/tests/special/flavor/hook.rs" in [(MPath (mk_path false [mk_seg "hook" [] (S 46 12)]))].
Definition rec_special_flavor_hook_2 : list string :=
  ["pub fn use_hook < T , E > ( result : Result < T , E > ) - > Result < T , E > where E : std : : fmt : : Debug , { result . hook ( | | : : hooq : :";
   "HooqMeta { line : 51usize , column : 9usize , path : ""<hooq_root>/tests/special/flavor/hook.rs"" , file : ""hook.rs"" , source_str : ""result"" , count :";
   """1st\stail\sexpr"" , bindings : : : std : : collections : : HashMap : : from ( [ ] ) } ) }"].
Definition it_special_flavor_hook_3 : item := let S := at_ "<hooq_root>/tests/special/flavor/hook.rs" in
  (IFn [] [I S "pub" 55 5] (mk_sig "use_hook2" (RetPath (mk_path false [mk_seg "Result" [O S "<" 55 59; I S "T" 55 60; O S "," 55 61; I S "E" 55 63; O S ">" 55 64] (S 55 53)])) [I S "fn" 55 9; I S "use_hook2" 55 12; O S "<" 55 21; I S "T" 55 22; O S "," 55 23; I S "E" 55 25; O S ">" 55 26; G S Parenth [I S "result" 55 28; O S ":" 55 34; I S "Result" 55 36; O S "<" 55 42; I S "T" 55 43; O S "," 55 44; I S "E" 55 46; O S ">" 55 47] 55 27; O S "-" 55 50; O S ">" 55 51; I S "Result" 55 53; O S "<" 55 59; I S "T" 55 60; O S "," 55 61; I S "E" 55 63; O S ">" 55 64; I S "where" 56 5; I S "E" 57 9; O S ":" 57 10; I S "std" 57 12; O S ":" 57 15; O S ":" 57 16; I S "fmt" 57 17; O S ":" 57 20; O S ":" 57 21; I S "Debug" 57 22; O S "," 57 27]) (S 58 5) [(SExpr (EPath [] (mk_path false [mk_seg "result" [] (S 59 9)])) None)]).
Definition args_special_flavor_hook_3 : list meta := let S := at_ "<hooq_root>/tests/special/flavor/hook.rs" in [(MNameValue (mk_path false [mk_seg "flavor" [] (S 54 12)]) (VStr "hook" (S 54 21)))].
Definition rec_special_flavor_hook_3 : list string :=
  ["pub fn use_hook2 < T , E > ( result : Result < T , E > ) - > Result < T , E > where E : std : : fmt : : Debug , { result . hook ( | | : : hooq : :";
   "HooqMeta { line : 59usize , column : 9usize , path : ""<hooq_root>/tests/special/flavor/hook.rs"" , file : ""hook.rs"" , source_str : ""result"" , count :";
   """1st\stail\sexpr"" , bindings : : : std : : collections : : HashMap : : from ( [ ] ) } ) }"].
(** mod custom/use_hook *)
Example recorded_special_flavor_hook_0 : expanded su_special_flavor_hook args_special_flavor_hook_0 it_special_flavor_hook_0 = words rec_special_flavor_hook_0.
Proof. vm_compute. reflexivity. Qed.
(** mod custom/use_hook2 *)
Example recorded_special_flavor_hook_1 : expanded su_special_flavor_hook args_special_flavor_hook_1 it_special_flavor_hook_1 = words rec_special_flavor_hook_1.
Proof. vm_compute. reflexivity. Qed.
(** mod custom2/use_hook *)
Example recorded_special_flavor_hook_2 : expanded su_special_flavor_hook args_special_flavor_hook_2 it_special_flavor_hook_2 = words rec_special_flavor_hook_2.
Proof. vm_compute. reflexivity. Qed.
(** mod custom2/use_hook2 *)
Example recorded_special_flavor_hook_3 : expanded su_special_flavor_hook args_special_flavor_hook_3 it_special_flavor_hook_3 = words rec_special_flavor_hook_3.
Proof. vm_compute. reflexivity. Qed.
(** ** hooq-macros/tests/special/flavor/inert-flavor/tests/tests_inner/inert_flavor.rs *)
Definition doc_special_flavor_inert_flavor_inert_flavor : list (string * ftable) := [("custom", FTable (mk_tcore [] (Some ".inspect_err(|_| println!(""custom error handler called""))") None None None None None []) [("ok", FTable (mk_tcore [] (Some ".inspect(|_| println!(""ok handler called""))") None (Some ["Ok"]) (Some ["Err"]) None None []) []); ("full", FTable (mk_tcore [] (Some ".inspect(|_| eprintln!(""full custom handler called: {}"", $hello))") (Some ["?"; "tail_expr"]) (Some ["MyErr"; "!MyOk"]) None (Some ["MyResult"]) (Some false) [("hello", """Hello""")]) [])])].
Definition texts_special_flavor_inert_flavor_inert_flavor : list (string * list tt) := let S := at_ "" in [("""Hello""", [L S (LStr "Hello") 1 1]);
  (".inspect(|_| eprintln!(""full custom handler called: {}"", $hello))", [O S "." 1 1; I S "inspect" 1 2; G S Parenth [O S "|" 1 10; I S "_" 1 11; O S "|" 1 12; I S "eprintln" 1 14; O S "!" 1 22; G S Parenth [L S (LStr "full custom handler called: {}") 1 24; O S "," 1 56; O S "$" 1 58; I S "hello" 1 59] 1 23] 1 9]);
  (".inspect(|_| println!(""ok handler called""))", [O S "." 1 1; I S "inspect" 1 2; G S Parenth [O S "|" 1 10; I S "_" 1 11; O S "|" 1 12; I S "println" 1 14; O S "!" 1 21; G S Parenth [L S (LStr "ok handler called") 1 23] 1 22] 1 9]);
  (".inspect_err(|_| println!(""custom error handler called""))", [O S "." 1 1; I S "inspect_err" 1 2; G S Parenth [O S "|" 1 14; I S "_" 1 15; O S "|" 1 16; I S "println" 1 18; O S "!" 1 25; G S Parenth [L S (LStr "custom error handler called") 1 27] 1 26] 1 13])].
Definition strs_special_flavor_inert_flavor_inert_flavor : list (string * string) :=
  [("( not specified )", "(not specified)");
   ("220 > enresult ( 10 ) ? |", " 220>    enresult(10)?
    |");
   ("24 > enresult ( ( ) ) ? |", "  24>    enresult(())?
    |");
   ("48 > f ( ) ? |", "  48>    f()?
    |");
   ("50 > enresult ( ( ) ) ? |", "  50>    enresult(())?
    |");
   ("57 > enresult ( ( ) ) ? |", "  57>    enresult(())?
    |");
   ("74 > enresult ( ( ) ) ? |", "  74>    enresult(())?
    |");
   ("[ { 0 } : { 1 } : { 2 } ] { 3 : ? } { 4 }", "[{0}:{1}:{2}] {3:?}
{4}
");
   ("custom error handler called", "custom error handler called
");
   ("full custom handler called : { 0 }", "full custom handler called: {0}
");
   ("hooq - macros / tests / special / flavor / inert - flavor / tests / tests_inner / inert_flavor . rs", "hooq-macros/tests/special/flavor/inert-flavor/tests/tests_inner/inert_flavor.rs");
   ("ok handler called", "ok handler called
");
   ("{ 0 : ? }", "{0:?}
");
   ("{ 0 }", "{0}
")].
Definition ends_special_flavor_inert_flavor_inert_flavor : list (N * N * (N * N * string)) :=
  [(5, 2, (5, 20, "")); (5, 7, (5, 19, "")); (6, 22, (6, 30, "")); (6, 44, (6, 46, "")); (6, 48, (8, 2, "")); (7, 7, (7, 12, "")); (10, 24, (10, 26, "")); (10, 28, (10, 30, "")); (12, 2, (12, 25, "")); (12, 8, (12, 24, "")); (13, 8, (13, 10, "")); (13, 23, (15, 2, "")); (14, 7, (14, 11, "")); (14, 8, (14, 10, "")); (17, 2, (17, 25, "")); (17, 8, (17, 24, "")); (18, 9, (18, 11, "")); (18, 24, (20, 2, "")); (19, 8, (19, 12, "")); (19, 9, (19, 11, "")); (22, 2, (22, 8, "")); (23, 19, (23, 21, "")); (23, 32, (23, 34, "")); (23, 36, (23, 38, "")); (23, 40, (53, 2, "")); (24, 13, (24, 17, "")); (24, 14, (24, 16, "")); (26, 6, (26, 36, "")); (26, 22, (26, 35, """custom.full""")); (27, 28, (46, 6, "")); (28, 17, (28, 21, "")); (28, 18, (28, 20, "")); (30, 17, (30, 38, "")); (30, 18, (30, 22, """{}""")); (30, 32, (30, 36, "")); (32, 20, (32, 27, "")); (32, 29, (34, 10, "")); (33, 25, (33, 27, "")); (36, 32, (36, 48, "")); (36, 42, (36, 46, "")); (36, 43, (36, 45, "")); (37, 30, (37, 32, "")); (37, 34, (37, 36, "")); (37, 38, (37, 54, "")); (37, 48, (37, 52, "")); (37, 49, (37, 51, "")); (39, 10, (39, 12, "")); (40, 10, (40, 32, "")); (41, 10, (41, 12, "")); (43, 17, (43, 28, "")); (43, 24, (43, 26, "")); (45, 13, (45, 15, "")); (48, 13, (48, 27, "")); (48, 14, (48, 20, """{:?}""")); (48, 23, (48, 25, "")); (50, 13, (50, 17, "")); (50, 14, (50, 16, "")); (52, 7, (52, 11, "")); (52, 8, (52, 10, "")); (55, 2, (55, 8, "")); (56, 19, (56, 21, "")); (56, 32, (56, 34, "")); (56, 36, (56, 38, "")); (56, 40, (77, 2, "")); (57, 13, (57, 17, "")); (57, 14, (57, 16, "")); (59, 6, (59, 34, "")); (59, 22, (59, 33, """custom.ok""")); (60, 6, (60, 36, "")); (60, 29, (60, 35, "")); (60, 30, (60, 34, """Ok""")); (61, 16, (61, 23, "")); (61, 25, (63, 6, "")); (62, 18, (62, 22, "")); (62, 19, (62, 21, "")); (66, 6, (66, 33, "")); (67, 16, (67, 23, "")); (67, 25, (69, 6, "")); (68, 18, (68, 22, "")); (68, 19, (68, 21, "")); (71, 6, (71, 28, "")); (72, 13, (72, 17, "")); (72, 14, (72, 16, "")); (74, 13, (74, 17, "")); (74, 14, (74, 16, "")); (76, 7, (76, 11, "")); (76, 8, (76, 10, "")); (79, 2, (79, 15, "")); (79, 7, (79, 14, "")); (80, 2, (80, 25, "")); (81, 2, (81, 50, "")); (81, 21, (81, 49, "")); (81, 22, (81, 25, """?""")); (81, 27, (81, 38, """tail_expr""")); (81, 40, (81, 48, """return""")); (82, 2, (82, 39, "")); (82, 25, (82, 38, "")); (82, 26, (82, 30, """Ok""")); (82, 32, (82, 37, """Err""")); (83, 25, (83, 27, "")); (83, 38, (83, 40, "")); (83, 42, (83, 44, "")); (83, 46, (118, 2, "")); (84, 16, (96, 6, "")); (85, 20, (85, 27, "")); (85, 29, (87, 10, "")); (86, 26, (86, 28, "")); (86, 30, (86, 32, "")); (86, 33, (86, 37, "")); (86, 34, (86, 36, "")); (89, 17, (89, 21, "")); (89, 18, (89, 20, "")); (91, 20, (91, 26, "")); (91, 28, (93, 10, "")); (92, 22, (92, 26, "")); (92, 23, (92, 25, "")); (95, 15, (95, 17, "")); (95, 19, (95, 21, "")); (95, 22, (95, 26, "")); (95, 23, (95, 25, "")); (98, 6, (98, 8, "")); (100, 6, (100, 41, "")); (101, 16, (113, 6, "")); (102, 20, (102, 27, "")); (102, 29, (104, 10, "")); (103, 26, (103, 28, "")); (103, 30, (103, 32, "")); (103, 33, (103, 37, "")); (103, 34, (103, 36, "")); (106, 17, (106, 21, "")); (106, 18, (106, 20, "")); (108, 20, (108, 26, "")); (108, 28, (110, 10, "")); (109, 22, (109, 26, "")); (109, 23, (109, 25, "")); (112, 15, (112, 17, "")); (112, 19, (112, 21, "")); (112, 22, (112, 26, "")); (112, 23, (112, 25, "")); (115, 6, (115, 8, "")); (117, 7, (117, 11, "")); (117, 8, (117, 10, "")); (120, 2, (120, 15, "")); (120, 7, (120, 14, "")); (121, 2, (121, 25, "")); (122, 2, (122, 50, "")); (122, 21, (122, 49, "")); (122, 22, (122, 25, """?""")); (122, 27, (122, 38, """tail_expr""")); (122, 40, (122, 48, """return""")); (123, 2, (123, 39, "")); (123, 25, (123, 38, "")); (123, 26, (123, 30, """Ok""")); (123, 32, (123, 37, """Err""")); (124, 29, (124, 31, "")); (124, 42, (124, 44, "")); (124, 46, (124, 48, "")); (124, 50, (175, 2, "")); (125, 16, (145, 6, "")); (126, 17, (126, 21, "")); (126, 18, (126, 20, "")); (128, 20, (128, 27, "")); (128, 29, (130, 10, "")); (129, 24, (129, 26, "")); (132, 20, (132, 27, "")); (132, 29, (134, 10, "")); (133, 25, (133, 27, "")); (136, 20, (136, 27, "")); (136, 29, (138, 10, "")); (137, 26, (137, 28, "")); (137, 30, (137, 32, "")); (137, 33, (137, 37, "")); (137, 34, (137, 36, "")); (140, 20, (140, 26, "")); (140, 28, (142, 10, "")); (141, 22, (141, 26, "")); (141, 23, (141, 25, "")); (144, 11, (144, 15, "")); (144, 12, (144, 14, "")); (147, 6, (147, 8, "")); (149, 6, (149, 45, "")); (150, 16, (170, 6, "")); (151, 17, (151, 21, "")); (151, 18, (151, 20, "")); (153, 20, (153, 27, "")); (153, 29, (155, 10, "")); (154, 24, (154, 26, "")); (157, 20, (157, 27, "")); (157, 29, (159, 10, "")); (158, 25, (158, 27, "")); (161, 20, (161, 27, "")); (161, 29, (163, 10, "")); (162, 26, (162, 28, "")); (162, 30, (162, 32, "")); (162, 33, (162, 37, "")); (162, 34, (162, 36, "")); (165, 20, (165, 26, "")); (165, 28, (167, 10, "")); (166, 22, (166, 26, "")); (166, 23, (166, 25, "")); (169, 11, (169, 15, "")); (169, 12, (169, 14, "")); (172, 6, (172, 8, "")); (174, 7, (174, 11, "")); (174, 8, (174, 10, "")); (177, 2, (177, 15, "")); (177, 7, (177, 14, "")); (178, 2, (178, 25, "")); (179, 2, (179, 50, "")); (179, 21, (179, 49, "")); (179, 22, (179, 25, """?""")); (179, 27, (179, 38, """tail_expr""")); (179, 40, (179, 48, """return""")); (180, 2, (180, 40, "")); (180, 25, (180, 39, "")); (180, 26, (180, 31, """!Ok""")); (180, 33, (180, 38, """Err""")); (181, 2, (181, 32, "")); (181, 21, (181, 31, "")); (181, 22, (181, 30, """Result""")); (182, 25, (182, 27, "")); (182, 38, (182, 40, "")); (182, 42, (182, 44, "")); (182, 46, (216, 2, "")); (183, 26, (183, 28, "")); (183, 30, (183, 32, "")); (183, 34, (189, 6, "")); (184, 20, (184, 27, "")); (184, 29, (186, 10, "")); (185, 28, (185, 32, "")); (185, 29, (185, 31, "")); (188, 11, (188, 15, "")); (188, 12, (188, 14, "")); (191, 6, (191, 8, "")); (193, 6, (193, 41, "")); (194, 26, (194, 28, "")); (194, 30, (194, 32, "")); (194, 34, (200, 6, "")); (195, 20, (195, 27, "")); (195, 29, (197, 10, "")); (196, 28, (196, 32, "")); (196, 29, (196, 31, "")); (199, 11, (199, 15, "")); (199, 12, (199, 14, "")); (202, 6, (202, 8, "")); (204, 6, (204, 41, "")); (205, 28, (211, 6, "")); (206, 20, (206, 27, "")); (206, 29, (208, 10, "")); (207, 28, (207, 32, "")); (207, 29, (207, 31, "")); (210, 11, (210, 15, "")); (210, 12, (210, 14, "")); (213, 6, (213, 8, "")); (215, 7, (215, 11, "")); (215, 8, (215, 10, "")); (218, 2, (218, 8, "")); (219, 27, (219, 29, "")); (219, 40, (219, 42, "")); (219, 44, (219, 46, "")); (219, 48, (226, 2, "")); (220, 13, (220, 34, "")); (220, 14, (220, 18, """{}""")); (220, 28, (220, 32, "")); (222, 6, (222, 43, "")); (223, 13, (223, 34, "")); (223, 14, (223, 18, """{}""")); (223, 28, (223, 32, "")); (225, 7, (225, 11, "")); (225, 8, (225, 10, "")); (228, 2, (228, 8, "")); (229, 2, (229, 35, "")); (229, 17, (229, 34, """(not specified)""")); (230, 2, (230, 58, "")); (230, 15, (230, 57, "")); (230, 28, (230, 56, "")); (230, 41, (230, 55, "")); (230, 42, (230, 46, """{}""")); (231, 21, (231, 23, "")); (231, 34, (231, 36, "")); (231, 38, (231, 40, "")); (231, 42, (238, 2, "")); (232, 13, (232, 17, "")); (232, 14, (232, 16, "")); (234, 6, (234, 37, "")); (235, 13, (235, 17, "")); (235, 14, (235, 16, "")); (237, 7, (237, 11, "")); (237, 8, (237, 10, "")); (240, 2, (240, 8, "")); (241, 8, (241, 10, "")); (241, 11, (249, 2, "")); (242, 20, (242, 22, "")); (242, 29, (242, 31, "")); (243, 20, (243, 22, "")); (243, 29, (243, 31, "")); (244, 26, (244, 28, "")); (244, 35, (244, 37, "")); (245, 30, (245, 32, "")); (245, 39, (245, 41, "")); (246, 26, (246, 28, "")); (246, 35, (246, 37, "")); (247, 28, (247, 30, "")); (247, 37, (247, 39, "")); (248, 22, (248, 24, "")); (248, 31, (248, 33, ""))].
Definition su_special_flavor_inert_flavor_inert_flavor : setup := mk_setup (mk_features false false false false false "hooq") doc_special_flavor_inert_flavor_inert_flavor texts_special_flavor_inert_flavor_inert_flavor strs_special_flavor_inert_flavor_inert_flavor [] ends_special_flavor_inert_flavor_inert_flavor "inert_flavor".
Definition it_special_flavor_inert_flavor_inert_flavor_0 : item := let S := at_ "hooq-macros/tests/special/flavor/inert-flavor/tests/tests_inner/inert_flavor.rs" in
  (IFn [] [] (mk_sig "enresult" (RetPath (mk_path false [mk_seg "Result" [O S "<" 6 40; I S "T" 6 41; O S "," 6 42; G S Parenth [] 6 44; O S ">" 6 46] (S 6 34)])) [I S "fn" 6 1; I S "enresult" 6 4; O S "<" 6 12; I S "T" 6 13; O S ":" 6 14; I S "Debug" 6 16; O S ">" 6 21; G S Parenth [I S "val" 6 23; O S ":" 6 26; I S "T" 6 28] 6 22; O S "-" 6 31; O S ">" 6 32; I S "Result" 6 34; O S "<" 6 40; I S "T" 6 41; O S "," 6 42; G S Parenth [] 6 44; O S ">" 6 46]) (S 6 48) [(SExpr (ECall [] (EPath [] (mk_path false [mk_seg "Ok" [] (S 7 5)])) (S 7 7) [(EPath [] (mk_path false [mk_seg "val" [] (S 7 8)]))] []) None)]).
Definition args_special_flavor_inert_flavor_inert_flavor_0 : list meta := let S := at_ "hooq-macros/tests/special/flavor/inert-flavor/tests/tests_inner/inert_flavor.rs" in [(MPath (mk_path false [mk_seg "custom" [] (S 5 8); mk_seg "ok" [] (S 5 16)]))].
Definition rec_special_flavor_inert_flavor_inert_flavor_0 : list string :=
  ["fn enresult < T : Debug > ( val : T ) - > Result < T , ( ) > { Ok ( val ) . inspect ( | _ | { : : std : : io : : _print ( format_args ! (";
   """ok\shandler\scalled\n"" ) ) ; } ) }"].
Definition it_special_flavor_inert_flavor_inert_flavor_1 : item := let S := at_ "hooq-macros/tests/special/flavor/inert-flavor/tests/tests_inner/inert_flavor.rs" in
  (IFn [] [] (mk_sig "flavor_override" (RetPath (mk_path false [mk_seg "Result" [O S "<" 23 31; G S Parenth [] 23 32; O S "," 23 34; G S Parenth [] 23 36; O S ">" 23 38] (S 23 25)])) [I S "fn" 23 1; I S "flavor_override" 23 4; G S Parenth [] 23 19; O S "-" 23 22; O S ">" 23 23; I S "Result" 23 25; O S "<" 23 31; G S Parenth [] 23 32; O S "," 23 34; G S Parenth [] 23 36; O S ">" 23 38]) (S 23 40) [(SExpr (ETry [] (ECall [] (EPath [] (mk_path false [mk_seg "enresult" [] (S 24 5)])) (S 24 13) [(ETuple [] (S 24 14) [] [])] []) (S 24 17)) (Some (S 24 18))); (SLocalInit [mk_attr false (S 26 5) (MNameValue (mk_path false [mk_seg "hooq" [] (S 26 7); mk_seg "flavor" [] (S 26 13)]) (VStr "custom.full" (S 26 22)))] [I S "let" 27 5; I S "f" 27 9; O S "=" 27 11] (EClosure [] [O S "|" 27 13; O S "|" 27 14; O S "-" 27 16; O S ">" 27 17; I S "MyResult" 27 19] (RetPath (mk_path false [mk_seg "MyResult" [] (S 27 19)])) (EBlock [] [] (S 27 28) [(SExpr (ETry [] (ECall [] (EPath [] (mk_path false [mk_seg "enresult" [] (S 28 9)])) (S 28 17) [(ETuple [] (S 28 18) [] [])] []) (S 28 21)) (Some (S 28 22))); (SMacro [] (Mac (mk_path false [mk_seg "println" [] (S 30 9)]) Parenth (S 30 17) [L S (LStr "{}") 30 18; O S "," 30 22; I S "enresult" 30 24; G S Parenth [L S (LOther "10") 30 33] 30 32; O S "?" 30 36] (Some [VExpr (ELit [] (LStr "{}") (S 30 18)) [O S "," 30 22]; VExpr (ETry [] (ECall [] (EPath [] (mk_path false [mk_seg "enresult" [] (S 30 24)])) (S 30 32) [(ELit [] (LOther "10") (S 30 33))] []) (S 30 36)) []])) [O S ";" 30 38]); (SExpr (EIf [] [I S "if" 32 9] (ETry [] (ECall [] (EPath [] (mk_path false [mk_seg "enresult" [] (S 32 12)])) (S 32 20) [(EPath [] (mk_path false [mk_seg "false" [] (S 32 21)]))] []) (S 32 27)) (S 32 29) [(SExpr (EReturn [] (S 33 13) (Some (ECall [] (EPath [] (mk_path false [mk_seg "MyErr" [] (S 33 20)])) (S 33 25) [] []))) (Some (S 33 27)))] [] None) None); (SLocalInit [] [I S "let" 36 9; I S "g" 36 13; O S "=" 36 15] (EClosure [] [O S "|" 36 17; O S "|" 36 18; O S "-" 36 20; O S ">" 36 21; I S "MyResult" 36 23] (RetPath (mk_path false [mk_seg "MyResult" [] (S 36 23)])) (EBlock [] [] (S 36 32) [(SExpr (ECall [] (EPath [] (mk_path false [mk_seg "enresult" [] (S 36 34)])) (S 36 42) [(ETuple [] (S 36 43) [] [])] []) None)])) [] None [O S ";" 36 48]); (SLocalInit [] [I S "let" 37 9; I S "h" 37 13; O S "=" 37 15] (EClosure [] [O S "|" 37 17; O S "|" 37 18; O S "-" 37 20; O S ">" 37 21; I S "Result" 37 23; O S "<" 37 29; G S Parenth [] 37 30; O S "," 37 32; G S Parenth [] 37 34; O S ">" 37 36] (RetPath (mk_path false [mk_seg "Result" [O S "<" 37 29; G S Parenth [] 37 30; O S "," 37 32; G S Parenth [] 37 34; O S ">" 37 36] (S 37 23)])) (EBlock [] [] (S 37 38) [(SExpr (ECall [] (EPath [] (mk_path false [mk_seg "enresult" [] (S 37 40)])) (S 37 48) [(ETuple [] (S 37 49) [] [])] []) None)])) [] None [O S ";" 37 54]); (SExpr (ETry [] (ECall [] (EPath [] (mk_path false [mk_seg "g" [] (S 39 9)])) (S 39 10) [] []) (S 39 12)) (Some (S 39 13))); (SExpr (ETry [mk_attr false (S 40 9) (MNameValue (mk_path false [mk_seg "hooq" [] (S 40 11); mk_seg "flavor" [] (S 40 17)]) (VPath (mk_path false [mk_seg "empty" [] (S 40 26)])))] (ECall [] (EPath [] (mk_path false [mk_seg "h" [] (S 41 9)])) (S 41 10) [] []) (S 41 12)) (Some (S 41 13))); (SLocalInit [] [I S "let" 43 9; I S "_" 43 13; O S "=" 43 15] (EBlock [] [] (S 43 17) [(SExpr (ECall [] (EPath [] (mk_path false [mk_seg "MyErr" [] (S 43 19)])) (S 43 24) [] []) None)]) [] None [O S ";" 43 28]); (SExpr (ECall [] (EPath [] (mk_path false [mk_seg "MyOk" [] (S 45 9)])) (S 45 13) [] []) None)])) [] None [O S ";" 46 6]); (SMacro [] (Mac (mk_path false [mk_seg "println" [] (S 48 5)]) Parenth (S 48 13) [L S (LStr "{:?}") 48 14; O S "," 48 20; I S "f" 48 22; G S Parenth [] 48 23; O S "?" 48 25] (Some [VExpr (ELit [] (LStr "{:?}") (S 48 14)) [O S "," 48 20]; VExpr (ETry [] (ECall [] (EPath [] (mk_path false [mk_seg "f" [] (S 48 22)])) (S 48 23) [] []) (S 48 25)) []])) [O S ";" 48 27]); (SExpr (ETry [] (ECall [] (EPath [] (mk_path false [mk_seg "enresult" [] (S 50 5)])) (S 50 13) [(ETuple [] (S 50 14) [] [])] []) (S 50 17)) (Some (S 50 18))); (SExpr (ECall [] (EPath [] (mk_path false [mk_seg "Ok" [] (S 52 5)])) (S 52 7) [(ETuple [] (S 52 8) [] [])] []) None)]).
Definition args_special_flavor_inert_flavor_inert_flavor_1 : list meta := let S := at_ "hooq-macros/tests/special/flavor/inert-flavor/tests/tests_inner/inert_flavor.rs" in [].
Definition rec_special_flavor_inert_flavor_inert_flavor_1 : list string :=
  ["fn flavor_override ( ) - > Result < ( ) , ( ) > { enresult ( ( ) ) . inspect_err ( | e | { let path =";
   """hooq-macros/tests/special/flavor/inert-flavor/tests/tests_inner/inert_flavor.rs"" ; let line = 24usize ; let col = 17usize ; let expr =";
   """\s\s24>\s\s\s\senresult(())?\n\s\s\s\s|"" ; { : : std : : io : : _eprint ( format_args ! ( ""[{0}:{1}:{2}]\s{3:?}\n{4}\n"" , path , line , col , e ,";
   "expr ) ) ; } ; } ) ? ; let f = | | - > MyResult { enresult ( ( ) ) . inspect ( | _ | { : : std : : io : : _eprint ( format_args ! (";
   """full\scustom\shandler\scalled:\s{0}\n"" , ""Hello"" ) ) ; } ) ? ; { : : std : : io : : _print ( format_args ! ( ""{0}\n"" , enresult ( 10 ) ? ) ) ; } ; if";
   "enresult ( false ) . inspect ( | _ | { : : std : : io : : _eprint ( format_args ! ( ""full\scustom\shandler\scalled:\s{0}\n"" , ""Hello"" ) ) ; } ) ? {";
   "return MyErr ( ) ; } let g = | | - > MyResult { enresult ( ( ) ) . inspect ( | _ | { : : std : : io : : _eprint ( format_args ! (";
   """full\scustom\shandler\scalled:\s{0}\n"" , ""Hello"" ) ) ; } ) } ; let h = | | - > Result < ( ) , ( ) > { enresult ( ( ) ) } ; g ( ) . inspect ( | _ | {";
   ": : std : : io : : _eprint ( format_args ! ( ""full\scustom\shandler\scalled:\s{0}\n"" , ""Hello"" ) ) ; } ) ? ; h ( ) ? ; let _ = { MyErr ( ) . inspect (";
   "| _ | { : : std : : io : : _eprint ( format_args ! ( ""full\scustom\shandler\scalled:\s{0}\n"" , ""Hello"" ) ) ; } ) } ; MyOk ( ) } ; { : : std : : io : :";
   "_print ( format_args ! ( ""{0:?}\n"" , f ( ) . inspect_err ( | e | { let path =";
   """hooq-macros/tests/special/flavor/inert-flavor/tests/tests_inner/inert_flavor.rs"" ; let line = 48usize ; let col = 25usize ; let expr =";
   """\s\s48>\s\s\s\sf()?\n\s\s\s\s|"" ; { : : std : : io : : _eprint ( format_args ! ( ""[{0}:{1}:{2}]\s{3:?}\n{4}\n"" , path , line , col , e , expr ) ) ; }";
   "; } ) ? ) ) ; } ; enresult ( ( ) ) . inspect_err ( | e | { let path =";
   """hooq-macros/tests/special/flavor/inert-flavor/tests/tests_inner/inert_flavor.rs"" ; let line = 50usize ; let col = 17usize ; let expr =";
   """\s\s50>\s\s\s\senresult(())?\n\s\s\s\s|"" ; { : : std : : io : : _eprint ( format_args ! ( ""[{0}:{1}:{2}]\s{3:?}\n{4}\n"" , path , line , col , e ,";
   "expr ) ) ; } ; } ) ? ; Ok ( ( ) ) }"].
Definition it_special_flavor_inert_flavor_inert_flavor_2 : item := let S := at_ "hooq-macros/tests/special/flavor/inert-flavor/tests/tests_inner/inert_flavor.rs" in
  (IFn [] [] (mk_sig "method_override" (RetPath (mk_path false [mk_seg "Result" [O S "<" 56 31; G S Parenth [] 56 32; O S "," 56 34; G S Parenth [] 56 36; O S ">" 56 38] (S 56 25)])) [I S "fn" 56 1; I S "method_override" 56 4; G S Parenth [] 56 19; O S "-" 56 22; O S ">" 56 23; I S "Result" 56 25; O S "<" 56 31; G S Parenth [] 56 32; O S "," 56 34; G S Parenth [] 56 36; O S ">" 56 38]) (S 56 40) [(SExpr (ETry [] (ECall [] (EPath [] (mk_path false [mk_seg "enresult" [] (S 57 5)])) (S 57 13) [(ETuple [] (S 57 14) [] [])] []) (S 57 17)) (Some (S 57 18))); (SExpr (EIf [mk_attr false (S 59 5) (MNameValue (mk_path false [mk_seg "hooq" [] (S 59 7); mk_seg "method" [] (S 59 13)]) (VStr "custom.ok" (S 59 22))); mk_attr false (S 60 5) (MList (mk_path false [mk_seg "hooq" [] (S 60 7); mk_seg "tail_expr_idents" [] (S 60 13)]) Parenth [L S (LStr "Ok") 60 30] (S 60 29))] [I S "if" 61 5] (ETry [] (ECall [] (EPath [] (mk_path false [mk_seg "enresult" [] (S 61 8)])) (S 61 16) [(EPath [] (mk_path false [mk_seg "false" [] (S 61 17)]))] []) (S 61 23)) (S 61 25) [(SExpr (EReturn [] (S 62 9) (Some (ECall [] (EPath [] (mk_path false [mk_seg "Ok" [] (S 62 16)])) (S 62 18) [(ETuple [] (S 62 19) [] [])] []))) (Some (S 62 22)))] [] None) None); (SExpr (EIf [mk_attr false (S 66 5) (MNameValue (mk_path false [mk_seg "hooq" [] (S 66 7); mk_seg "method" [] (S 66 13)]) (VPath (mk_path false [mk_seg "custom" [] (S 66 22); mk_seg "ok" [] (S 66 30)])))] [I S "if" 67 5] (ETry [] (ECall [] (EPath [] (mk_path false [mk_seg "enresult" [] (S 67 8)])) (S 67 16) [(EPath [] (mk_path false [mk_seg "false" [] (S 67 17)]))] []) (S 67 23)) (S 67 25) [(SExpr (EReturn [] (S 68 9) (Some (ECall [] (EPath [] (mk_path false [mk_seg "Ok" [] (S 68 16)])) (S 68 18) [(ETuple [] (S 68 19) [] [])] []))) (Some (S 68 22)))] [] None) None); (SExpr (ETry [mk_attr false (S 71 5) (MNameValue (mk_path false [mk_seg "hooq" [] (S 71 7); mk_seg "method" [] (S 71 13)]) (VPath (mk_path false [mk_seg "empty" [] (S 71 22)])))] (ECall [] (EPath [] (mk_path false [mk_seg "enresult" [] (S 72 5)])) (S 72 13) [(ETuple [] (S 72 14) [] [])] []) (S 72 17)) (Some (S 72 18))); (SExpr (ETry [] (ECall [] (EPath [] (mk_path false [mk_seg "enresult" [] (S 74 5)])) (S 74 13) [(ETuple [] (S 74 14) [] [])] []) (S 74 17)) (Some (S 74 18))); (SExpr (ECall [] (EPath [] (mk_path false [mk_seg "Ok" [] (S 76 5)])) (S 76 7) [(ETuple [] (S 76 8) [] [])] []) None)]).
Definition args_special_flavor_inert_flavor_inert_flavor_2 : list meta := let S := at_ "hooq-macros/tests/special/flavor/inert-flavor/tests/tests_inner/inert_flavor.rs" in [].
Definition rec_special_flavor_inert_flavor_inert_flavor_2 : list string :=
  ["fn method_override ( ) - > Result < ( ) , ( ) > { enresult ( ( ) ) . inspect_err ( | e | { let path =";
   """hooq-macros/tests/special/flavor/inert-flavor/tests/tests_inner/inert_flavor.rs"" ; let line = 57usize ; let col = 17usize ; let expr =";
   """\s\s57>\s\s\s\senresult(())?\n\s\s\s\s|"" ; { : : std : : io : : _eprint ( format_args ! ( ""[{0}:{1}:{2}]\s{3:?}\n{4}\n"" , path , line , col , e ,";
   "expr ) ) ; } ; } ) ? ; if enresult ( false ) . inspect ( | _ | { : : std : : io : : _print ( format_args ! ( ""ok\shandler\scalled\n"" ) ) ; } ) ? {";
   "return Ok ( ( ) ) . inspect ( | _ | { : : std : : io : : _print ( format_args ! ( ""ok\shandler\scalled\n"" ) ) ; } ) ; } if enresult ( false ) .";
   "inspect ( | _ | { : : std : : io : : _print ( format_args ! ( ""ok\shandler\scalled\n"" ) ) ; } ) ? { return Ok ( ( ) ) ; } enresult ( ( ) ) ? ;";
   "enresult ( ( ) ) . inspect_err ( | e | { let path = ""hooq-macros/tests/special/flavor/inert-flavor/tests/tests_inner/inert_flavor.rs"" ; let line =";
   "74usize ; let col = 17usize ; let expr = ""\s\s74>\s\s\s\senresult(())?\n\s\s\s\s|"" ; { : : std : : io : : _eprint ( format_args ! (";
   """[{0}:{1}:{2}]\s{3:?}\n{4}\n"" , path , line , col , e , expr ) ) ; } ; } ) ? ; Ok ( ( ) ) }"].
Definition it_special_flavor_inert_flavor_inert_flavor_3 : item := let S := at_ "hooq-macros/tests/special/flavor/inert-flavor/tests/tests_inner/inert_flavor.rs" in
  (IFn [mk_attr false (S 80 1) (MNameValue (mk_path false [mk_seg "hooq" [] (S 80 3); mk_seg "method" [] (S 80 9)]) (VPath (mk_path false [mk_seg "custom" [] (S 80 18)]))); mk_attr false (S 81 1) (MList (mk_path false [mk_seg "hooq" [] (S 81 3); mk_seg "hook_targets" [] (S 81 9)]) Parenth [L S (LStr "?") 81 22; O S "," 81 25; L S (LStr "tail_expr") 81 27; O S "," 81 38; L S (LStr "return") 81 40] (S 81 21)); mk_attr false (S 82 1) (MList (mk_path false [mk_seg "hooq" [] (S 82 3); mk_seg "tail_expr_idents" [] (S 82 9)]) Parenth [L S (LStr "Ok") 82 26; O S "," 82 30; L S (LStr "Err") 82 32] (S 82 25))] [] (mk_sig "hook_targets_override" (RetPath (mk_path false [mk_seg "Result" [O S "<" 83 37; G S Parenth [] 83 38; O S "," 83 40; G S Parenth [] 83 42; O S ">" 83 44] (S 83 31)])) [I S "fn" 83 1; I S "hook_targets_override" 83 4; G S Parenth [] 83 25; O S "-" 83 28; O S ">" 83 29; I S "Result" 83 31; O S "<" 83 37; G S Parenth [] 83 38; O S "," 83 40; G S Parenth [] 83 42; O S ">" 83 44]) (S 83 46) [(SLocalInit [] [I S "let" 84 5; I S "f" 84 9; O S "=" 84 11] (EClosure [] [O S "|" 84 13; O S "|" 84 14] RetNone (EBlock [] [] (S 84 16) [(SExpr (EIf [] [I S "if" 85 9] (ETry [] (ECall [] (EPath [] (mk_path false [mk_seg "enresult" [] (S 85 12)])) (S 85 20) [(EPath [] (mk_path false [mk_seg "false" [] (S 85 21)]))] []) (S 85 27)) (S 85 29) [(SExpr (EReturn [] (S 86 13) (Some (ECall [] (EPath [] (mk_path false [mk_seg "Err" [O S ":" 86 23; O S ":" 86 24; O S "<" 86 25; G S Parenth [] 86 26; O S "," 86 28; G S Parenth [] 86 30; O S ">" 86 32] (S 86 20)])) (S 86 33) [(ETuple [] (S 86 34) [] [])] []))) (Some (S 86 37)))] [] None) None); (SExpr (ETry [] (ECall [] (EPath [] (mk_path false [mk_seg "enresult" [] (S 89 9)])) (S 89 17) [(ETuple [] (S 89 18) [] [])] []) (S 89 21)) (Some (S 89 22))); (SExpr (EIf [] [I S "if" 91 9] (ETry [] (ECall [] (EPath [] (mk_path false [mk_seg "enresult" [] (S 91 12)])) (S 91 20) [(EPath [] (mk_path false [mk_seg "true" [] (S 91 21)]))] []) (S 91 26)) (S 91 28) [(SExpr (EReturn [] (S 92 13) (Some (ECall [] (EPath [] (mk_path false [mk_seg "Ok" [] (S 92 20)])) (S 92 22) [(ETuple [] (S 92 23) [] [])] []))) (Some (S 92 26)))] [] None) None); (SExpr (ECall [] (EPath [] (mk_path false [mk_seg "Err" [O S ":" 95 12; O S ":" 95 13; O S "<" 95 14; G S Parenth [] 95 15; O S "," 95 17; G S Parenth [] 95 19; O S ">" 95 21] (S 95 9)])) (S 95 22) [(ETuple [] (S 95 23) [] [])] []) None)])) [] None [O S ";" 96 6]); (SExpr (ETry [] (ECall [] (EPath [] (mk_path false [mk_seg "f" [] (S 98 5)])) (S 98 6) [] []) (S 98 8)) (Some (S 98 9))); (SLocalInit [mk_attr false (S 100 5) (MNameValue (mk_path false [mk_seg "hooq" [] (S 100 7); mk_seg "hook_targets" [] (S 100 13)]) (VPath (mk_path false [mk_seg "custom" [] (S 100 28); mk_seg "full" [] (S 100 36)])))] [I S "let" 101 5; I S "f" 101 9; O S "=" 101 11] (EClosure [] [O S "|" 101 13; O S "|" 101 14] RetNone (EBlock [] [] (S 101 16) [(SExpr (EIf [] [I S "if" 102 9] (ETry [] (ECall [] (EPath [] (mk_path false [mk_seg "enresult" [] (S 102 12)])) (S 102 20) [(EPath [] (mk_path false [mk_seg "false" [] (S 102 21)]))] []) (S 102 27)) (S 102 29) [(SExpr (EReturn [] (S 103 13) (Some (ECall [] (EPath [] (mk_path false [mk_seg "Err" [O S ":" 103 23; O S ":" 103 24; O S "<" 103 25; G S Parenth [] 103 26; O S "," 103 28; G S Parenth [] 103 30; O S ">" 103 32] (S 103 20)])) (S 103 33) [(ETuple [] (S 103 34) [] [])] []))) (Some (S 103 37)))] [] None) None); (SExpr (ETry [] (ECall [] (EPath [] (mk_path false [mk_seg "enresult" [] (S 106 9)])) (S 106 17) [(ETuple [] (S 106 18) [] [])] []) (S 106 21)) (Some (S 106 22))); (SExpr (EIf [] [I S "if" 108 9] (ETry [] (ECall [] (EPath [] (mk_path false [mk_seg "enresult" [] (S 108 12)])) (S 108 20) [(EPath [] (mk_path false [mk_seg "true" [] (S 108 21)]))] []) (S 108 26)) (S 108 28) [(SExpr (EReturn [] (S 109 13) (Some (ECall [] (EPath [] (mk_path false [mk_seg "Ok" [] (S 109 20)])) (S 109 22) [(ETuple [] (S 109 23) [] [])] []))) (Some (S 109 26)))] [] None) None); (SExpr (ECall [] (EPath [] (mk_path false [mk_seg "Err" [O S ":" 112 12; O S ":" 112 13; O S "<" 112 14; G S Parenth [] 112 15; O S "," 112 17; G S Parenth [] 112 19; O S ">" 112 21] (S 112 9)])) (S 112 22) [(ETuple [] (S 112 23) [] [])] []) None)])) [] None [O S ";" 113 6]); (SExpr (ETry [] (ECall [] (EPath [] (mk_path false [mk_seg "f" [] (S 115 5)])) (S 115 6) [] []) (S 115 8)) (Some (S 115 9))); (SExpr (ECall [] (EPath [] (mk_path false [mk_seg "Ok" [] (S 117 5)])) (S 117 7) [(ETuple [] (S 117 8) [] [])] []) None)]).
Definition args_special_flavor_inert_flavor_inert_flavor_3 : list meta := let S := at_ "hooq-macros/tests/special/flavor/inert-flavor/tests/tests_inner/inert_flavor.rs" in [(MPath (mk_path false [mk_seg "empty" [] (S 79 8)]))].
Definition rec_special_flavor_inert_flavor_inert_flavor_3 : list string :=
  ["fn hook_targets_override ( ) - > Result < ( ) , ( ) > { let f = | | { if enresult ( false ) . inspect_err ( | _ | { : : std : : io : : _print (";
   "format_args ! ( ""custom\serror\shandler\scalled\n"" ) ) ; } ) ? { return Err : : < ( ) , ( ) > ( ( ) ) . inspect_err ( | _ | { : : std : : io : :";
   "_print ( format_args ! ( ""custom\serror\shandler\scalled\n"" ) ) ; } ) ; } enresult ( ( ) ) . inspect_err ( | _ | { : : std : : io : : _print (";
   "format_args ! ( ""custom\serror\shandler\scalled\n"" ) ) ; } ) ? ; if enresult ( true ) . inspect_err ( | _ | { : : std : : io : : _print ( format_args";
   "! ( ""custom\serror\shandler\scalled\n"" ) ) ; } ) ? { return Ok ( ( ) ) . inspect_err ( | _ | { : : std : : io : : _print ( format_args ! (";
   """custom\serror\shandler\scalled\n"" ) ) ; } ) ; } Err : : < ( ) , ( ) > ( ( ) ) . inspect_err ( | _ | { : : std : : io : : _print ( format_args ! (";
   """custom\serror\shandler\scalled\n"" ) ) ; } ) } ; f ( ) . inspect_err ( | _ | { : : std : : io : : _print ( format_args ! (";
   """custom\serror\shandler\scalled\n"" ) ) ; } ) ? ; let f = | | { if enresult ( false ) . inspect_err ( | _ | { : : std : : io : : _print ( format_args !";
   "( ""custom\serror\shandler\scalled\n"" ) ) ; } ) ? { return Err : : < ( ) , ( ) > ( ( ) ) ; } enresult ( ( ) ) . inspect_err ( | _ | { : : std : : io :";
   ": _print ( format_args ! ( ""custom\serror\shandler\scalled\n"" ) ) ; } ) ? ; if enresult ( true ) . inspect_err ( | _ | { : : std : : io : : _print (";
   "format_args ! ( ""custom\serror\shandler\scalled\n"" ) ) ; } ) ? { return Ok ( ( ) ) ; } Err : : < ( ) , ( ) > ( ( ) ) . inspect_err ( | _ | { : : std :";
   ": io : : _print ( format_args ! ( ""custom\serror\shandler\scalled\n"" ) ) ; } ) } ; f ( ) . inspect_err ( | _ | { : : std : : io : : _print (";
   "format_args ! ( ""custom\serror\shandler\scalled\n"" ) ) ; } ) ? ; Ok ( ( ) ) . inspect_err ( | _ | { : : std : : io : : _print ( format_args ! (";
   """custom\serror\shandler\scalled\n"" ) ) ; } ) }"].
Definition it_special_flavor_inert_flavor_inert_flavor_4 : item := let S := at_ "hooq-macros/tests/special/flavor/inert-flavor/tests/tests_inner/inert_flavor.rs" in
  (IFn [mk_attr false (S 121 1) (MNameValue (mk_path false [mk_seg "hooq" [] (S 121 3); mk_seg "method" [] (S 121 9)]) (VPath (mk_path false [mk_seg "custom" [] (S 121 18)]))); mk_attr false (S 122 1) (MList (mk_path false [mk_seg "hooq" [] (S 122 3); mk_seg "hook_targets" [] (S 122 9)]) Parenth [L S (LStr "?") 122 22; O S "," 122 25; L S (LStr "tail_expr") 122 27; O S "," 122 38; L S (LStr "return") 122 40] (S 122 21)); mk_attr false (S 123 1) (MList (mk_path false [mk_seg "hooq" [] (S 123 3); mk_seg "tail_expr_idents" [] (S 123 9)]) Parenth [L S (LStr "Ok") 123 26; O S "," 123 30; L S (LStr "Err") 123 32] (S 123 25))] [] (mk_sig "tail_expr_idents_override" (RetPath (mk_path false [mk_seg "Result" [O S "<" 124 41; G S Parenth [] 124 42; O S "," 124 44; G S Parenth [] 124 46; O S ">" 124 48] (S 124 35)])) [I S "fn" 124 1; I S "tail_expr_idents_override" 124 4; G S Parenth [] 124 29; O S "-" 124 32; O S ">" 124 33; I S "Result" 124 35; O S "<" 124 41; G S Parenth [] 124 42; O S "," 124 44; G S Parenth [] 124 46; O S ">" 124 48]) (S 124 50) [(SLocalInit [] [I S "let" 125 5; I S "f" 125 9; O S "=" 125 11] (EClosure [] [O S "|" 125 13; O S "|" 125 14] RetNone (EBlock [] [] (S 125 16) [(SExpr (ETry [] (ECall [] (EPath [] (mk_path false [mk_seg "enresult" [] (S 126 9)])) (S 126 17) [(ETuple [] (S 126 18) [] [])] []) (S 126 21)) (Some (S 126 22))); (SExpr (EIf [] [I S "if" 128 9] (ETry [] (ECall [] (EPath [] (mk_path false [mk_seg "enresult" [] (S 128 12)])) (S 128 20) [(EPath [] (mk_path false [mk_seg "false" [] (S 128 21)]))] []) (S 128 27)) (S 128 29) [(SExpr (EReturn [] (S 129 13) (Some (ECall [] (EPath [] (mk_path false [mk_seg "MyOk" [] (S 129 20)])) (S 129 24) [] []))) (Some (S 129 26)))] [] None) None); (SExpr (EIf [] [I S "if" 132 9] (ETry [] (ECall [] (EPath [] (mk_path false [mk_seg "enresult" [] (S 132 12)])) (S 132 20) [(EPath [] (mk_path false [mk_seg "false" [] (S 132 21)]))] []) (S 132 27)) (S 132 29) [(SExpr (EReturn [] (S 133 13) (Some (ECall [] (EPath [] (mk_path false [mk_seg "MyErr" [] (S 133 20)])) (S 133 25) [] []))) (Some (S 133 27)))] [] None) None); (SExpr (EIf [] [I S "if" 136 9] (ETry [] (ECall [] (EPath [] (mk_path false [mk_seg "enresult" [] (S 136 12)])) (S 136 20) [(EPath [] (mk_path false [mk_seg "false" [] (S 136 21)]))] []) (S 136 27)) (S 136 29) [(SExpr (EReturn [] (S 137 13) (Some (ECall [] (EPath [] (mk_path false [mk_seg "Err" [O S ":" 137 23; O S ":" 137 24; O S "<" 137 25; G S Parenth [] 137 26; O S "," 137 28; G S Parenth [] 137 30; O S ">" 137 32] (S 137 20)])) (S 137 33) [(ETuple [] (S 137 34) [] [])] []))) (Some (S 137 37)))] [] None) None); (SExpr (EIf [] [I S "if" 140 9] (ETry [] (ECall [] (EPath [] (mk_path false [mk_seg "enresult" [] (S 140 12)])) (S 140 20) [(EPath [] (mk_path false [mk_seg "true" [] (S 140 21)]))] []) (S 140 26)) (S 140 28) [(SExpr (EReturn [] (S 141 13) (Some (ECall [] (EPath [] (mk_path false [mk_seg "Ok" [] (S 141 20)])) (S 141 22) [(ETuple [] (S 141 23) [] [])] []))) (Some (S 141 26)))] [] None) None); (SExpr (ECall [] (EPath [] (mk_path false [mk_seg "Ok" [] (S 144 9)])) (S 144 11) [(ETuple [] (S 144 12) [] [])] []) None)])) [] None [O S ";" 145 6]); (SExpr (ETry [] (ECall [] (EPath [] (mk_path false [mk_seg "f" [] (S 147 5)])) (S 147 6) [] []) (S 147 8)) (Some (S 147 9))); (SLocalInit [mk_attr false (S 149 5) (MNameValue (mk_path false [mk_seg "hooq" [] (S 149 7); mk_seg "tail_expr_idents" [] (S 149 13)]) (VPath (mk_path false [mk_seg "custom" [] (S 149 32); mk_seg "full" [] (S 149 40)])))] [I S "let" 150 5; I S "f" 150 9; O S "=" 150 11] (EClosure [] [O S "|" 150 13; O S "|" 150 14] RetNone (EBlock [] [] (S 150 16) [(SExpr (ETry [] (ECall [] (EPath [] (mk_path false [mk_seg "enresult" [] (S 151 9)])) (S 151 17) [(ETuple [] (S 151 18) [] [])] []) (S 151 21)) (Some (S 151 22))); (SExpr (EIf [] [I S "if" 153 9] (ETry [] (ECall [] (EPath [] (mk_path false [mk_seg "enresult" [] (S 153 12)])) (S 153 20) [(EPath [] (mk_path false [mk_seg "false" [] (S 153 21)]))] []) (S 153 27)) (S 153 29) [(SExpr (EReturn [] (S 154 13) (Some (ECall [] (EPath [] (mk_path false [mk_seg "MyOk" [] (S 154 20)])) (S 154 24) [] []))) (Some (S 154 26)))] [] None) None); (SExpr (EIf [] [I S "if" 157 9] (ETry [] (ECall [] (EPath [] (mk_path false [mk_seg "enresult" [] (S 157 12)])) (S 157 20) [(EPath [] (mk_path false [mk_seg "false" [] (S 157 21)]))] []) (S 157 27)) (S 157 29) [(SExpr (EReturn [] (S 158 13) (Some (ECall [] (EPath [] (mk_path false [mk_seg "MyErr" [] (S 158 20)])) (S 158 25) [] []))) (Some (S 158 27)))] [] None) None); (SExpr (EIf [] [I S "if" 161 9] (ETry [] (ECall [] (EPath [] (mk_path false [mk_seg "enresult" [] (S 161 12)])) (S 161 20) [(EPath [] (mk_path false [mk_seg "false" [] (S 161 21)]))] []) (S 161 27)) (S 161 29) [(SExpr (EReturn [] (S 162 13) (Some (ECall [] (EPath [] (mk_path false [mk_seg "Err" [O S ":" 162 23; O S ":" 162 24; O S "<" 162 25; G S Parenth [] 162 26; O S "," 162 28; G S Parenth [] 162 30; O S ">" 162 32] (S 162 20)])) (S 162 33) [(ETuple [] (S 162 34) [] [])] []))) (Some (S 162 37)))] [] None) None); (SExpr (EIf [] [I S "if" 165 9] (ETry [] (ECall [] (EPath [] (mk_path false [mk_seg "enresult" [] (S 165 12)])) (S 165 20) [(EPath [] (mk_path false [mk_seg "true" [] (S 165 21)]))] []) (S 165 26)) (S 165 28) [(SExpr (EReturn [] (S 166 13) (Some (ECall [] (EPath [] (mk_path false [mk_seg "Ok" [] (S 166 20)])) (S 166 22) [(ETuple [] (S 166 23) [] [])] []))) (Some (S 166 26)))] [] None) None); (SExpr (ECall [] (EPath [] (mk_path false [mk_seg "Ok" [] (S 169 9)])) (S 169 11) [(ETuple [] (S 169 12) [] [])] []) None)])) [] None [O S ";" 170 6]); (SExpr (ETry [] (ECall [] (EPath [] (mk_path false [mk_seg "f" [] (S 172 5)])) (S 172 6) [] []) (S 172 8)) (Some (S 172 9))); (SExpr (ECall [] (EPath [] (mk_path false [mk_seg "Ok" [] (S 174 5)])) (S 174 7) [(ETuple [] (S 174 8) [] [])] []) None)]).
Definition args_special_flavor_inert_flavor_inert_flavor_4 : list meta := let S := at_ "hooq-macros/tests/special/flavor/inert-flavor/tests/tests_inner/inert_flavor.rs" in [(MPath (mk_path false [mk_seg "empty" [] (S 120 8)]))].
Definition rec_special_flavor_inert_flavor_inert_flavor_4 : list string :=
  ["fn tail_expr_idents_override ( ) - > Result < ( ) , ( ) > { let f = | | { enresult ( ( ) ) . inspect_err ( | _ | { : : std : : io : : _print (";
   "format_args ! ( ""custom\serror\shandler\scalled\n"" ) ) ; } ) ? ; if enresult ( false ) . inspect_err ( | _ | { : : std : : io : : _print ( format_args";
   "! ( ""custom\serror\shandler\scalled\n"" ) ) ; } ) ? { return MyOk ( ) ; } if enresult ( false ) . inspect_err ( | _ | { : : std : : io : : _print (";
   "format_args ! ( ""custom\serror\shandler\scalled\n"" ) ) ; } ) ? { return MyErr ( ) ; } if enresult ( false ) . inspect_err ( | _ | { : : std : : io : :";
   "_print ( format_args ! ( ""custom\serror\shandler\scalled\n"" ) ) ; } ) ? { return Err : : < ( ) , ( ) > ( ( ) ) . inspect_err ( | _ | { : : std : : io";
   ": : _print ( format_args ! ( ""custom\serror\shandler\scalled\n"" ) ) ; } ) ; } if enresult ( true ) . inspect_err ( | _ | { : : std : : io : : _print (";
   "format_args ! ( ""custom\serror\shandler\scalled\n"" ) ) ; } ) ? { return Ok ( ( ) ) . inspect_err ( | _ | { : : std : : io : : _print ( format_args ! (";
   """custom\serror\shandler\scalled\n"" ) ) ; } ) ; } Ok ( ( ) ) . inspect_err ( | _ | { : : std : : io : : _print ( format_args ! (";
   """custom\serror\shandler\scalled\n"" ) ) ; } ) } ; f ( ) . inspect_err ( | _ | { : : std : : io : : _print ( format_args ! (";
   """custom\serror\shandler\scalled\n"" ) ) ; } ) ? ; let f = | | { enresult ( ( ) ) . inspect_err ( | _ | { : : std : : io : : _print ( format_args ! (";
   """custom\serror\shandler\scalled\n"" ) ) ; } ) ? ; if enresult ( false ) . inspect_err ( | _ | { : : std : : io : : _print ( format_args ! (";
   """custom\serror\shandler\scalled\n"" ) ) ; } ) ? { return MyOk ( ) ; } if enresult ( false ) . inspect_err ( | _ | { : : std : : io : : _print (";
   "format_args ! ( ""custom\serror\shandler\scalled\n"" ) ) ; } ) ? { return MyErr ( ) . inspect_err ( | _ | { : : std : : io : : _print ( format_args ! (";
   """custom\serror\shandler\scalled\n"" ) ) ; } ) ; } if enresult ( false ) . inspect_err ( | _ | { : : std : : io : : _print ( format_args ! (";
   """custom\serror\shandler\scalled\n"" ) ) ; } ) ? { return Err : : < ( ) , ( ) > ( ( ) ) ; } if enresult ( true ) . inspect_err ( | _ | { : : std : : io";
   ": : _print ( format_args ! ( ""custom\serror\shandler\scalled\n"" ) ) ; } ) ? { return Ok ( ( ) ) ; } Ok ( ( ) ) } ; f ( ) . inspect_err ( | _ | { : :";
   "std : : io : : _print ( format_args ! ( ""custom\serror\shandler\scalled\n"" ) ) ; } ) ? ; Ok ( ( ) ) . inspect_err ( | _ | { : : std : : io : : _print";
   "( format_args ! ( ""custom\serror\shandler\scalled\n"" ) ) ; } ) }"].
Definition it_special_flavor_inert_flavor_inert_flavor_5 : item := let S := at_ "hooq-macros/tests/special/flavor/inert-flavor/tests/tests_inner/inert_flavor.rs" in
  (IFn [mk_attr false (S 178 1) (MNameValue (mk_path false [mk_seg "hooq" [] (S 178 3); mk_seg "method" [] (S 178 9)]) (VPath (mk_path false [mk_seg "custom" [] (S 178 18)]))); mk_attr false (S 179 1) (MList (mk_path false [mk_seg "hooq" [] (S 179 3); mk_seg "hook_targets" [] (S 179 9)]) Parenth [L S (LStr "?") 179 22; O S "," 179 25; L S (LStr "tail_expr") 179 27; O S "," 179 38; L S (LStr "return") 179 40] (S 179 21)); mk_attr false (S 180 1) (MList (mk_path false [mk_seg "hooq" [] (S 180 3); mk_seg "tail_expr_idents" [] (S 180 9)]) Parenth [L S (LStr "!Ok") 180 26; O S "," 180 31; L S (LStr "Err") 180 33] (S 180 25)); mk_attr false (S 181 1) (MList (mk_path false [mk_seg "hooq" [] (S 181 3); mk_seg "result_types" [] (S 181 9)]) Parenth [L S (LStr "Result") 181 22] (S 181 21))] [] (mk_sig "result_types_override" (RetPath (mk_path false [mk_seg "Result" [O S "<" 182 37; G S Parenth [] 182 38; O S "," 182 40; G S Parenth [] 182 42; O S ">" 182 44] (S 182 31)])) [I S "fn" 182 1; I S "result_types_override" 182 4; G S Parenth [] 182 25; O S "-" 182 28; O S ">" 182 29; I S "Result" 182 31; O S "<" 182 37; G S Parenth [] 182 38; O S "," 182 40; G S Parenth [] 182 42; O S ">" 182 44]) (S 182 46) [(SLocalInit [] [I S "let" 183 5; I S "f" 183 9; O S "=" 183 11] (EClosure [] [O S "|" 183 13; O S "|" 183 14; O S "-" 183 16; O S ">" 183 17; I S "Result" 183 19; O S "<" 183 25; G S Parenth [] 183 26; O S "," 183 28; G S Parenth [] 183 30; O S ">" 183 32] (RetPath (mk_path false [mk_seg "Result" [O S "<" 183 25; G S Parenth [] 183 26; O S "," 183 28; G S Parenth [] 183 30; O S ">" 183 32] (S 183 19)])) (EBlock [] [] (S 183 34) [(SExpr (EIf [] [I S "if" 184 9] (ETry [] (ECall [] (EPath [] (mk_path false [mk_seg "enresult" [] (S 184 12)])) (S 184 20) [(EPath [] (mk_path false [mk_seg "false" [] (S 184 21)]))] []) (S 184 27)) (S 184 29) [(SExpr (EReturn [] (S 185 13) (Some (ECall [] (EPath [] (mk_path false [mk_seg "enresult" [] (S 185 20)])) (S 185 28) [(ETuple [] (S 185 29) [] [])] []))) (Some (S 185 32)))] [] None) None); (SExpr (ECall [] (EPath [] (mk_path false [mk_seg "Ok" [] (S 188 9)])) (S 188 11) [(ETuple [] (S 188 12) [] [])] []) None)])) [] None [O S ";" 189 6]); (SExpr (ETry [] (ECall [] (EPath [] (mk_path false [mk_seg "f" [] (S 191 5)])) (S 191 6) [] []) (S 191 8)) (Some (S 191 9))); (SLocalInit [mk_attr false (S 193 5) (MNameValue (mk_path false [mk_seg "hooq" [] (S 193 7); mk_seg "result_types" [] (S 193 13)]) (VPath (mk_path false [mk_seg "custom" [] (S 193 28); mk_seg "full" [] (S 193 36)])))] [I S "let" 194 5; I S "f" 194 9; O S "=" 194 11] (EClosure [] [O S "|" 194 13; O S "|" 194 14; O S "-" 194 16; O S ">" 194 17; I S "Result" 194 19; O S "<" 194 25; G S Parenth [] 194 26; O S "," 194 28; G S Parenth [] 194 30; O S ">" 194 32] (RetPath (mk_path false [mk_seg "Result" [O S "<" 194 25; G S Parenth [] 194 26; O S "," 194 28; G S Parenth [] 194 30; O S ">" 194 32] (S 194 19)])) (EBlock [] [] (S 194 34) [(SExpr (EIf [] [I S "if" 195 9] (ETry [] (ECall [] (EPath [] (mk_path false [mk_seg "enresult" [] (S 195 12)])) (S 195 20) [(EPath [] (mk_path false [mk_seg "false" [] (S 195 21)]))] []) (S 195 27)) (S 195 29) [(SExpr (EReturn [] (S 196 13) (Some (ECall [] (EPath [] (mk_path false [mk_seg "enresult" [] (S 196 20)])) (S 196 28) [(ETuple [] (S 196 29) [] [])] []))) (Some (S 196 32)))] [] None) None); (SExpr (ECall [] (EPath [] (mk_path false [mk_seg "Ok" [] (S 199 9)])) (S 199 11) [(ETuple [] (S 199 12) [] [])] []) None)])) [] None [O S ";" 200 6]); (SExpr (ETry [] (ECall [] (EPath [] (mk_path false [mk_seg "f" [] (S 202 5)])) (S 202 6) [] []) (S 202 8)) (Some (S 202 9))); (SLocalInit [mk_attr false (S 204 5) (MNameValue (mk_path false [mk_seg "hooq" [] (S 204 7); mk_seg "result_types" [] (S 204 13)]) (VPath (mk_path false [mk_seg "custom" [] (S 204 28); mk_seg "full" [] (S 204 36)])))] [I S "let" 205 5; I S "f" 205 9; O S "=" 205 11] (EClosure [] [O S "|" 205 13; O S "|" 205 14; O S "-" 205 16; O S ">" 205 17; I S "MyResult" 205 19] (RetPath (mk_path false [mk_seg "MyResult" [] (S 205 19)])) (EBlock [] [] (S 205 28) [(SExpr (EIf [] [I S "if" 206 9] (ETry [] (ECall [] (EPath [] (mk_path false [mk_seg "enresult" [] (S 206 12)])) (S 206 20) [(EPath [] (mk_path false [mk_seg "false" [] (S 206 21)]))] []) (S 206 27)) (S 206 29) [(SExpr (EReturn [] (S 207 13) (Some (ECall [] (EPath [] (mk_path false [mk_seg "enresult" [] (S 207 20)])) (S 207 28) [(ETuple [] (S 207 29) [] [])] []))) (Some (S 207 32)))] [] None) None); (SExpr (ECall [] (EPath [] (mk_path false [mk_seg "Ok" [] (S 210 9)])) (S 210 11) [(ETuple [] (S 210 12) [] [])] []) None)])) [] None [O S ";" 211 6]); (SExpr (ETry [] (ECall [] (EPath [] (mk_path false [mk_seg "f" [] (S 213 5)])) (S 213 6) [] []) (S 213 8)) (Some (S 213 9))); (SExpr (ECall [] (EPath [] (mk_path false [mk_seg "Ok" [] (S 215 5)])) (S 215 7) [(ETuple [] (S 215 8) [] [])] []) None)]).
Definition args_special_flavor_inert_flavor_inert_flavor_5 : list meta := let S := at_ "hooq-macros/tests/special/flavor/inert-flavor/tests/tests_inner/inert_flavor.rs" in [(MPath (mk_path false [mk_seg "empty" [] (S 177 8)]))].
Definition rec_special_flavor_inert_flavor_inert_flavor_5 : list string :=
  ["fn result_types_override ( ) - > Result < ( ) , ( ) > { let f = | | - > Result < ( ) , ( ) > { if enresult ( false ) . inspect_err ( | _ | { : : std :";
   ": io : : _print ( format_args ! ( ""custom\serror\shandler\scalled\n"" ) ) ; } ) ? { return enresult ( ( ) ) . inspect_err ( | _ | { : : std : : io : :";
   "_print ( format_args ! ( ""custom\serror\shandler\scalled\n"" ) ) ; } ) ; } Ok ( ( ) ) } ; f ( ) . inspect_err ( | _ | { : : std : : io : : _print (";
   "format_args ! ( ""custom\serror\shandler\scalled\n"" ) ) ; } ) ? ; let f = | | - > Result < ( ) , ( ) > { if enresult ( false ) . inspect_err ( | _ | {";
   ": : std : : io : : _print ( format_args ! ( ""custom\serror\shandler\scalled\n"" ) ) ; } ) ? { return enresult ( ( ) ) ; } Ok ( ( ) ) } ; f ( ) .";
   "inspect_err ( | _ | { : : std : : io : : _print ( format_args ! ( ""custom\serror\shandler\scalled\n"" ) ) ; } ) ? ; let f = | | - > MyResult { if";
   "enresult ( false ) . inspect_err ( | _ | { : : std : : io : : _print ( format_args ! ( ""custom\serror\shandler\scalled\n"" ) ) ; } ) ? { return";
   "enresult ( ( ) ) . inspect_err ( | _ | { : : std : : io : : _print ( format_args ! ( ""custom\serror\shandler\scalled\n"" ) ) ; } ) ; } Ok ( ( ) ) } ; f";
   "( ) . inspect_err ( | _ | { : : std : : io : : _print ( format_args ! ( ""custom\serror\shandler\scalled\n"" ) ) ; } ) ? ; Ok ( ( ) ) }"].
Definition it_special_flavor_inert_flavor_inert_flavor_6 : item := let S := at_ "hooq-macros/tests/special/flavor/inert-flavor/tests/tests_inner/inert_flavor.rs" in
  (IFn [] [] (mk_sig "hook_in_macros_override" (RetPath (mk_path false [mk_seg "Result" [O S "<" 219 39; G S Parenth [] 219 40; O S "," 219 42; G S Parenth [] 219 44; O S ">" 219 46] (S 219 33)])) [I S "fn" 219 1; I S "hook_in_macros_override" 219 4; G S Parenth [] 219 27; O S "-" 219 30; O S ">" 219 31; I S "Result" 219 33; O S "<" 219 39; G S Parenth [] 219 40; O S "," 219 42; G S Parenth [] 219 44; O S ">" 219 46]) (S 219 48) [(SMacro [] (Mac (mk_path false [mk_seg "println" [] (S 220 5)]) Parenth (S 220 13) [L S (LStr "{}") 220 14; O S "," 220 18; I S "enresult" 220 20; G S Parenth [L S (LOther "10") 220 29] 220 28; O S "?" 220 32] (Some [VExpr (ELit [] (LStr "{}") (S 220 14)) [O S "," 220 18]; VExpr (ETry [] (ECall [] (EPath [] (mk_path false [mk_seg "enresult" [] (S 220 20)])) (S 220 28) [(ELit [] (LOther "10") (S 220 29))] []) (S 220 32)) []])) [O S ";" 220 34]); (SMacro [mk_attr false (S 222 5) (MNameValue (mk_path false [mk_seg "hooq" [] (S 222 7); mk_seg "hook_in_macros" [] (S 222 13)]) (VPath (mk_path false [mk_seg "custom" [] (S 222 30); mk_seg "full" [] (S 222 38)])))] (Mac (mk_path false [mk_seg "println" [] (S 223 5)]) Parenth (S 223 13) [L S (LStr "{}") 223 14; O S "," 223 18; I S "enresult" 223 20; G S Parenth [L S (LOther "10") 223 29] 223 28; O S "?" 223 32] (Some [VExpr (ELit [] (LStr "{}") (S 223 14)) [O S "," 223 18]; VExpr (ETry [] (ECall [] (EPath [] (mk_path false [mk_seg "enresult" [] (S 223 20)])) (S 223 28) [(ELit [] (LOther "10") (S 223 29))] []) (S 223 32)) []])) [O S ";" 223 34]); (SExpr (ECall [] (EPath [] (mk_path false [mk_seg "Ok" [] (S 225 5)])) (S 225 7) [(ETuple [] (S 225 8) [] [])] []) None)]).
Definition args_special_flavor_inert_flavor_inert_flavor_6 : list meta := let S := at_ "hooq-macros/tests/special/flavor/inert-flavor/tests/tests_inner/inert_flavor.rs" in [].
Definition rec_special_flavor_inert_flavor_inert_flavor_6 : list string :=
  ["fn hook_in_macros_override ( ) - > Result < ( ) , ( ) > { { : : std : : io : : _print ( format_args ! ( ""{0}\n"" , enresult ( 10 ) . inspect_err ( | e";
   "| { let path = ""hooq-macros/tests/special/flavor/inert-flavor/tests/tests_inner/inert_flavor.rs"" ; let line = 220usize ; let col = 32usize ; let expr";
   "= ""\s220>\s\s\s\senresult(10)?\n\s\s\s\s|"" ; { : : std : : io : : _eprint ( format_args ! ( ""[{0}:{1}:{2}]\s{3:?}\n{4}\n"" , path , line , col , e ,";
   "expr ) ) ; } ; } ) ? ) ) ; } ; { : : std : : io : : _print ( format_args ! ( ""{0}\n"" , enresult ( 10 ) ? ) ) ; } ; Ok ( ( ) ) }"].
Definition it_special_flavor_inert_flavor_inert_flavor_7 : item := let S := at_ "hooq-macros/tests/special/flavor/inert-flavor/tests/tests_inner/inert_flavor.rs" in
  (IFn [mk_attr false (S 229 1) (MNameValue (mk_path false [mk_seg "hooq" [] (S 229 3); mk_seg "hello" [] (S 229 9)]) (VStr "(not specified)" (S 229 17))); mk_attr false (S 230 1) (MList (mk_path false [mk_seg "hooq" [] (S 230 3); mk_seg "method" [] (S 230 9)]) Parenth [O S "." 230 16; I S "inspect_err" 230 17; G S Parenth [O S "|" 230 29; I S "_" 230 30; O S "|" 230 31; I S "println" 230 33; O S "!" 230 40; G S Parenth [L S (LStr "{}") 230 42; O S "," 230 46; O S "$" 230 48; I S "hello" 230 49] 230 41] 230 28] (S 230 15))] [] (mk_sig "bindings_override" (RetPath (mk_path false [mk_seg "Result" [O S "<" 231 33; G S Parenth [] 231 34; O S "," 231 36; G S Parenth [] 231 38; O S ">" 231 40] (S 231 27)])) [I S "fn" 231 1; I S "bindings_override" 231 4; G S Parenth [] 231 21; O S "-" 231 24; O S ">" 231 25; I S "Result" 231 27; O S "<" 231 33; G S Parenth [] 231 34; O S "," 231 36; G S Parenth [] 231 38; O S ">" 231 40]) (S 231 42) [(SExpr (ETry [] (ECall [] (EPath [] (mk_path false [mk_seg "enresult" [] (S 232 5)])) (S 232 13) [(ETuple [] (S 232 14) [] [])] []) (S 232 17)) (Some (S 232 18))); (SExpr (ETry [mk_attr false (S 234 5) (MNameValue (mk_path false [mk_seg "hooq" [] (S 234 7); mk_seg "bindings" [] (S 234 13)]) (VPath (mk_path false [mk_seg "custom" [] (S 234 24); mk_seg "full" [] (S 234 32)])))] (ECall [] (EPath [] (mk_path false [mk_seg "enresult" [] (S 235 5)])) (S 235 13) [(ETuple [] (S 235 14) [] [])] []) (S 235 17)) (Some (S 235 18))); (SExpr (ECall [] (EPath [] (mk_path false [mk_seg "Ok" [] (S 237 5)])) (S 237 7) [(ETuple [] (S 237 8) [] [])] []) None)]).
Definition args_special_flavor_inert_flavor_inert_flavor_7 : list meta := let S := at_ "hooq-macros/tests/special/flavor/inert-flavor/tests/tests_inner/inert_flavor.rs" in [].
Definition rec_special_flavor_inert_flavor_inert_flavor_7 : list string :=
  ["fn bindings_override ( ) - > Result < ( ) , ( ) > { enresult ( ( ) ) . inspect_err ( | _ | { : : std : : io : : _print ( format_args ! ( ""{0}\n"" ,";
   """(not\sspecified)"" ) ) ; } ) ? ; enresult ( ( ) ) . inspect_err ( | _ | { : : std : : io : : _print ( format_args ! ( ""{0}\n"" , ""Hello"" ) ) ; } ) ? ;";
   "Ok ( ( ) ) }"].
(** enresult *)
Example recorded_special_flavor_inert_flavor_inert_flavor_0 : expanded su_special_flavor_inert_flavor_inert_flavor args_special_flavor_inert_flavor_inert_flavor_0 it_special_flavor_inert_flavor_inert_flavor_0 = words rec_special_flavor_inert_flavor_inert_flavor_0.
Proof. vm_compute. reflexivity. Qed.
(** flavor_override *)
Example recorded_special_flavor_inert_flavor_inert_flavor_1 : expanded su_special_flavor_inert_flavor_inert_flavor args_special_flavor_inert_flavor_inert_flavor_1 it_special_flavor_inert_flavor_inert_flavor_1 = words rec_special_flavor_inert_flavor_inert_flavor_1.
Proof. vm_compute. reflexivity. Qed.
(** method_override *)
Example recorded_special_flavor_inert_flavor_inert_flavor_2 : expanded su_special_flavor_inert_flavor_inert_flavor args_special_flavor_inert_flavor_inert_flavor_2 it_special_flavor_inert_flavor_inert_flavor_2 = words rec_special_flavor_inert_flavor_inert_flavor_2.
Proof. vm_compute. reflexivity. Qed.
(** hook_targets_override *)
Example recorded_special_flavor_inert_flavor_inert_flavor_3 : expanded su_special_flavor_inert_flavor_inert_flavor args_special_flavor_inert_flavor_inert_flavor_3 it_special_flavor_inert_flavor_inert_flavor_3 = words rec_special_flavor_inert_flavor_inert_flavor_3.
Proof. vm_compute. reflexivity. Qed.
(** tail_expr_idents_override *)
Example recorded_special_flavor_inert_flavor_inert_flavor_4 : expanded su_special_flavor_inert_flavor_inert_flavor args_special_flavor_inert_flavor_inert_flavor_4 it_special_flavor_inert_flavor_inert_flavor_4 = words rec_special_flavor_inert_flavor_inert_flavor_4.
Proof. vm_compute. reflexivity. Qed.
(** result_types_override *)
Example recorded_special_flavor_inert_flavor_inert_flavor_5 : expanded su_special_flavor_inert_flavor_inert_flavor args_special_flavor_inert_flavor_inert_flavor_5 it_special_flavor_inert_flavor_inert_flavor_5 = words rec_special_flavor_inert_flavor_inert_flavor_5.
Proof. vm_compute. reflexivity. Qed.
(** hook_in_macros_override *)
Example recorded_special_flavor_inert_flavor_inert_flavor_6 : expanded su_special_flavor_inert_flavor_inert_flavor args_special_flavor_inert_flavor_inert_flavor_6 it_special_flavor_inert_flavor_inert_flavor_6 = words rec_special_flavor_inert_flavor_inert_flavor_6.
Proof. vm_compute. reflexivity. Qed.
(** bindings_override *)
Example recorded_special_flavor_inert_flavor_inert_flavor_7 : expanded su_special_flavor_inert_flavor_inert_flavor args_special_flavor_inert_flavor_inert_flavor_7 it_special_flavor_inert_flavor_inert_flavor_7 = words rec_special_flavor_inert_flavor_inert_flavor_7.
Proof. vm_compute. reflexivity. Qed.
(** ** hooq-macros/tests/special/flavor_not_cargo_project/main.rs *)
Definition doc_special_flavor_not_cargo_project_main : list (string * ftable) := [("default", FTable (mk_tcore [] (Some ".inspect_err(|v| {
   eprintln!(""Default Error Handler: {}"", v);
})
.inspect(|_| println!(""Default Success Handler""))") None None None None None []) []); ("custom", FTable (mk_tcore [] (Some ".inspect_err(|v| {
   eprintln!(""Custom Error Handler: {}"", v);
})
.inspect(|_| println!(""Custom Success Handler""))") None None None None None []) [])].
Definition texts_special_flavor_not_cargo_project_main : list (string * list tt) := let S := at_ "" in [(".inspect_err(|v| {
   eprintln!(""Custom Error Handler: {}"", v);
})
.inspect(|_| println!(""Custom Success Handler""))", [O S "." 1 1; I S "inspect_err" 1 2; G S Parenth [O S "|" 1 14; I S "v" 1 15; O S "|" 1 16; G S Brace [I S "eprintln" 2 4; O S "!" 2 12; G S Parenth [L S (LStr "Custom Error Handler: {}") 2 14; O S "," 2 40; I S "v" 2 42] 2 13; O S ";" 2 44] 1 18] 1 13; O S "." 4 1; I S "inspect" 4 2; G S Parenth [O S "|" 4 10; I S "_" 4 11; O S "|" 4 12; I S "println" 4 14; O S "!" 4 21; G S Parenth [L S (LStr "Custom Success Handler") 4 23] 4 22] 4 9]);
  (".inspect_err(|v| {
   eprintln!(""Default Error Handler: {}"", v);
})
.inspect(|_| println!(""Default Success Handler""))", [O S "." 1 1; I S "inspect_err" 1 2; G S Parenth [O S "|" 1 14; I S "v" 1 15; O S "|" 1 16; G S Brace [I S "eprintln" 2 4; O S "!" 2 12; G S Parenth [L S (LStr "Default Error Handler: {}") 2 14; O S "," 2 41; I S "v" 2 43] 2 13; O S ";" 2 45] 1 18] 1 13; O S "." 4 1; I S "inspect" 4 2; G S Parenth [O S "|" 4 10; I S "_" 4 11; O S "|" 4 12; I S "println" 4 14; O S "!" 4 21; G S Parenth [L S (LStr "Default Success Handler") 4 23] 4 22] 4 9])].
Definition strs_special_flavor_not_cargo_project_main : list (string * string) :=
  [("Custom Error Handler : { 0 }", "Custom Error Handler: {0}
");
   ("Custom Success Handler", "Custom Success Handler
");
   ("Default Error Handler : { 0 }", "Default Error Handler: {0}
");
   ("Default Success Handler", "Default Success Handler
")].
Definition ends_special_flavor_not_cargo_project_main : list (N * N * (N * N * string)) :=
  [(5, 2, (5, 16, "")); (5, 7, (5, 15, "")); (6, 8, (6, 20, "")); (6, 31, (6, 33, "")); (6, 63, (12, 2, "")); (7, 13, (9, 6, "")); (8, 19, (8, 35, "")); (8, 20, (8, 27, """error""")); (8, 32, (8, 34, "")); (11, 7, (11, 11, "")); (11, 8, (11, 10, "")); (14, 2, (14, 8, "")); (15, 8, (15, 10, "")); (15, 21, (15, 23, "")); (15, 53, (19, 2, "")); (16, 9, (16, 16, "")); (18, 7, (18, 11, "")); (18, 8, (18, 10, ""))].
Definition su_special_flavor_not_cargo_project_main : setup := mk_setup (mk_features false false true false false "hooq") doc_special_flavor_not_cargo_project_main texts_special_flavor_not_cargo_project_main strs_special_flavor_not_cargo_project_main [] ends_special_flavor_not_cargo_project_main "main".
Definition it_special_flavor_not_cargo_project_main_0 : item := let S := at_ "hooq-macros/tests/special/flavor_not_cargo_project/main.rs" in
  (IFn [] [] (mk_sig "hoge" (RetPath (mk_path false [mk_seg "Result" [O S "<" 6 30; G S Parenth [] 6 31; O S "," 6 33; I S "Box" 6 35; O S "<" 6 38; I S "dyn" 6 39; I S "std" 6 43; O S ":" 6 46; O S ":" 6 47; I S "error" 6 48; O S ":" 6 53; O S ":" 6 54; I S "Error" 6 55; O S ">" 6 60; O S ">" 6 61] (S 6 24)])) [I S "fn" 6 1; I S "hoge" 6 4; G S Parenth [I S "flag" 6 9; O S ":" 6 13; I S "bool" 6 15] 6 8; O S "-" 6 21; O S ">" 6 22; I S "Result" 6 24; O S "<" 6 30; G S Parenth [] 6 31; O S "," 6 33; I S "Box" 6 35; O S "<" 6 38; I S "dyn" 6 39; I S "std" 6 43; O S ":" 6 46; O S ":" 6 47; I S "error" 6 48; O S ":" 6 53; O S ":" 6 54; I S "Error" 6 55; O S ">" 6 60; O S ">" 6 61]) (S 6 63) [(SExpr (EIf [] [I S "if" 7 5] (EPath [] (mk_path false [mk_seg "flag" [] (S 7 8)])) (S 7 13) [(SExpr (EReturn [] (S 8 9) (Some (ECall [] (EPath [] (mk_path false [mk_seg "Err" [] (S 8 16)])) (S 8 19) [(EMethodCall [] (ELit [] (LStr "error") (S 8 20)) [O S "." 8 27; I S "into" 8 28] (S 8 32) [] [])] []))) (Some (S 8 35)))] [] None) None); (SExpr (ECall [] (EPath [] (mk_path false [mk_seg "Ok" [] (S 11 5)])) (S 11 7) [(ETuple [] (S 11 8) [] [])] []) None)]).
Definition args_special_flavor_not_cargo_project_main_0 : list meta := let S := at_ "hooq-macros/tests/special/flavor_not_cargo_project/main.rs" in [(MPath (mk_path false [mk_seg "custom" [] (S 5 8)]))].
Definition rec_special_flavor_not_cargo_project_main_0 : list string :=
  ["fn hoge ( flag : bool ) - > Result < ( ) , Box < dyn std : : error : : Error > > { if flag { return Err ( ""error"" . into ( ) ) . inspect_err ( | v | {";
   "{ : : std : : io : : _eprint ( format_args ! ( ""Custom\sError\sHandler:\s{0}\n"" , v ) ) ; } ; } ) . inspect ( | _ | { : : std : : io : : _print (";
   "format_args ! ( ""Custom\sSuccess\sHandler\n"" ) ) ; } ) ; } Ok ( ( ) ) }"].
Definition it_special_flavor_not_cargo_project_main_1 : item := let S := at_ "hooq-macros/tests/special/flavor_not_cargo_project/main.rs" in
  (IFn [] [] (mk_sig "main" (RetPath (mk_path false [mk_seg "Result" [O S "<" 15 20; G S Parenth [] 15 21; O S "," 15 23; I S "Box" 15 25; O S "<" 15 28; I S "dyn" 15 29; I S "std" 15 33; O S ":" 15 36; O S ":" 15 37; I S "error" 15 38; O S ":" 15 43; O S ":" 15 44; I S "Error" 15 45; O S ">" 15 50; O S ">" 15 51] (S 15 14)])) [I S "fn" 15 1; I S "main" 15 4; G S Parenth [] 15 8; O S "-" 15 11; O S ">" 15 12; I S "Result" 15 14; O S "<" 15 20; G S Parenth [] 15 21; O S "," 15 23; I S "Box" 15 25; O S "<" 15 28; I S "dyn" 15 29; I S "std" 15 33; O S ":" 15 36; O S ":" 15 37; I S "error" 15 38; O S ":" 15 43; O S ":" 15 44; I S "Error" 15 45; O S ">" 15 50; O S ">" 15 51]) (S 15 53) [(SExpr (ETry [] (ECall [] (EPath [] (mk_path false [mk_seg "hoge" [] (S 16 5)])) (S 16 9) [(EPath [] (mk_path false [mk_seg "false" [] (S 16 10)]))] []) (S 16 16)) (Some (S 16 17))); (SExpr (ECall [] (EPath [] (mk_path false [mk_seg "Ok" [] (S 18 5)])) (S 18 7) [(ETuple [] (S 18 8) [] [])] []) None)]).
Definition args_special_flavor_not_cargo_project_main_1 : list meta := let S := at_ "hooq-macros/tests/special/flavor_not_cargo_project/main.rs" in [].
Definition rec_special_flavor_not_cargo_project_main_1 : list string :=
  ["fn main ( ) - > Result < ( ) , Box < dyn std : : error : : Error > > { hoge ( false ) . inspect_err ( | v | { { : : std : : io : : _eprint (";
   "format_args ! ( ""Default\sError\sHandler:\s{0}\n"" , v ) ) ; } ; } ) . inspect ( | _ | { : : std : : io : : _print ( format_args ! (";
   """Default\sSuccess\sHandler\n"" ) ) ; } ) ? ; Ok ( ( ) ) }"].
(** hoge *)
Example recorded_special_flavor_not_cargo_project_main_0 : expanded su_special_flavor_not_cargo_project_main args_special_flavor_not_cargo_project_main_0 it_special_flavor_not_cargo_project_main_0 = words rec_special_flavor_not_cargo_project_main_0.
Proof. vm_compute. reflexivity. Qed.
(** main *)
Example recorded_special_flavor_not_cargo_project_main_1 : expanded su_special_flavor_not_cargo_project_main args_special_flavor_not_cargo_project_main_1 it_special_flavor_not_cargo_project_main_1 = words rec_special_flavor_not_cargo_project_main_1.
Proof. vm_compute. reflexivity. Qed.
(** ** hooq-macros/tests/special/fn_special.rs *)
Definition doc_special_fn_special : list (string * ftable) := [].
Definition texts_special_fn_special : list (string * list tt) := let S := at_ "" in [].
Definition strs_special_fn_special : list (string * string) :=
  [("( no tag )", "(no tag)");
   ("tag : { 0 }", "tag: {0}
")].
Definition ends_special_fn_special : list (N * N * (N * N * string)) :=
  [(6, 2, (6, 8, "")); (7, 2, (9, 5, "")); (7, 15, (9, 4, "")); (7, 24, (9, 3, "")); (7, 29, (9, 2, "")); (8, 13, (8, 30, "")); (8, 14, (8, 23, """tag: {}""")); (10, 2, (10, 26, "")); (10, 15, (10, 25, """(no tag)""")); (11, 2, (11, 39, "")); (11, 25, (11, 38, "")); (11, 26, (11, 30, """Ok""")); (11, 32, (11, 37, """Err""")); (12, 8, (12, 32, "")); (12, 43, (12, 45, "")); (12, 47, (12, 49, "")); (12, 51, (82, 2, "")); (13, 6, (13, 28, "")); (13, 19, (13, 27, """return""")); (14, 13, (16, 6, "")); (15, 19, (15, 23, "")); (15, 20, (15, 22, "")); (18, 6, (18, 32, "")); (18, 19, (18, 31, """not result""")); (19, 12, (19, 24, "")); (19, 32, (24, 6, "")); (20, 17, (22, 10, "")); (26, 17, (26, 23, "")); (28, 6, (28, 26, "")); (28, 19, (28, 25, """nest""")); (29, 12, (29, 24, "")); (29, 32, (77, 6, "")); (30, 26, (30, 36, "")); (30, 30, (30, 34, "")); (30, 42, (30, 53, "")); (30, 47, (30, 51, "")); (30, 48, (30, 50, "")); (31, 35, (31, 37, "")); (31, 39, (31, 49, "")); (31, 43, (31, 47, "")); (32, 35, (32, 37, "")); (32, 39, (32, 46, "")); (32, 42, (32, 44, "")); (33, 35, (33, 37, "")); (33, 39, (65, 10, "")); (34, 21, (39, 14, "")); (35, 18, (35, 48, "")); (35, 31, (35, 47, """return in deep""")); (36, 17, (38, 18, "")); (37, 29, (37, 31, "")); (40, 18, (40, 20, "")); (40, 28, (42, 14, "")); (43, 26, (62, 14, "")); (44, 25, (46, 18, "")); (45, 32, (45, 38, "")); (48, 31, (59, 18, "")); (49, 29, (51, 22, "")); (50, 33, (50, 35, "")); (53, 36, (57, 22, "")); (54, 36, (54, 38, "")); (56, 39, (56, 41, "")); (56, 46, (56, 51, "")); (58, 26, (58, 28, "")); (61, 26, (61, 28, "")); (61, 35, (61, 37, "")); (64, 15, (64, 29, "")); (64, 18, (64, 20, "")); (64, 26, (64, 28, "")); (66, 20, (72, 10, "")); (67, 21, (69, 14, "")); (68, 19, (68, 50, "")); (68, 21, (68, 27, "")); (68, 32, (68, 34, "")); (68, 39, (68, 41, "")); (68, 46, (68, 48, "")); (69, 20, (71, 14, "")); (70, 20, (70, 24, "")); (70, 21, (70, 23, "")); (74, 18, (74, 20, "")); (74, 27, (74, 29, "")); (79, 17, (79, 23, "")); (81, 8, (81, 12, "")); (81, 9, (81, 11, "")); (84, 2, (84, 8, "")); (85, 8, (85, 10, "")); (85, 11, (87, 2, "")); (86, 9, (86, 21, "")); (86, 32, (86, 34, ""))].
Definition su_special_fn_special : setup := mk_setup (mk_features false false true false false "hooq") doc_special_fn_special texts_special_fn_special strs_special_fn_special [] ends_special_fn_special "fn_special".
Definition it_special_fn_special_0 : item := let S := at_ "hooq-macros/tests/special/fn_special.rs" in
  (IFn [mk_attr false (S 7 1) (MList (mk_path false [mk_seg "hooq" [] (S 7 3); mk_seg "method" [] (S 7 9)]) Parenth [O S "." 7 16; I S "inspect" 7 17; G S Parenth [O S "|" 7 25; I S "_" 7 26; O S "|" 7 27; G S Brace [I S "println" 8 5; O S "!" 8 12; G S Parenth [L S (LStr "tag: {}") 8 14; O S "," 8 23; O S "$" 8 25; I S "tag" 8 26] 8 13; O S ";" 8 30] 7 29] 7 24] (S 7 15)); mk_attr false (S 10 1) (MNameValue (mk_path false [mk_seg "hooq" [] (S 10 3); mk_seg "tag" [] (S 10 9)]) (VStr "(no tag)" (S 10 15))); mk_attr false (S 11 1) (MList (mk_path false [mk_seg "hooq" [] (S 11 3); mk_seg "tail_expr_idents" [] (S 11 9)]) Parenth [L S (LStr "Ok") 11 26; O S "," 11 30; L S (LStr "Err") 11 32] (S 11 25))] [] (mk_sig "func" (RetPath (mk_path false [mk_seg "Result" [O S "<" 12 42; G S Parenth [] 12 43; O S "," 12 45; G S Parenth [] 12 47; O S ">" 12 49] (S 12 36)])) [I S "fn" 12 1; I S "func" 12 4; G S Parenth [I S "flag" 12 9; O S ":" 12 13; I S "bool" 12 15; O S "," 12 19; I S "flog" 12 21; O S ":" 12 25; I S "bool" 12 27] 12 8; O S "-" 12 33; O S ">" 12 34; I S "Result" 12 36; O S "<" 12 42; G S Parenth [] 12 43; O S "," 12 45; G S Parenth [] 12 47; O S ">" 12 49]) (S 12 51) [(SExpr (EIf [mk_attr false (S 13 5) (MNameValue (mk_path false [mk_seg "hooq" [] (S 13 7); mk_seg "tag" [] (S 13 13)]) (VStr "return" (S 13 19)))] [I S "if" 14 5] (EPath [] (mk_path false [mk_seg "flag" [] (S 14 8)])) (S 14 13) [(SExpr (EReturn [] (S 15 9) (Some (ECall [] (EPath [] (mk_path false [mk_seg "Err" [] (S 15 16)])) (S 15 19) [(ETuple [] (S 15 20) [] [])] []))) (Some (S 15 23)))] [] None) None); (SItem (IFn [mk_attr false (S 18 5) (MNameValue (mk_path false [mk_seg "hooq" [] (S 18 7); mk_seg "tag" [] (S 18 13)]) (VStr "not result" (S 18 19)))] [] (mk_sig "hoge" (RetPath (mk_path false [mk_seg "u32" [] (S 19 28)])) [I S "fn" 19 5; I S "hoge" 19 8; G S Parenth [I S "flag" 19 13; O S ":" 19 17; I S "bool" 19 19] 19 12; O S "-" 19 25; O S ">" 19 26; I S "u32" 19 28]) (S 19 32) [(SExpr (EIf [] [I S "if" 20 9] (EPath [] (mk_path false [mk_seg "flag" [] (S 20 12)])) (S 20 17) [(SExpr (EReturn [] (S 21 13) (Some (ELit [] (LOther "1") (S 21 20)))) (Some (S 21 21)))] [] None) None); (SExpr (ELit [] (LOther "0") (S 23 9)) None)])); (SLocalInit [] [I S "let" 26 5; I S "_" 26 9; O S "=" 26 11] (ECall [] (EPath [] (mk_path false [mk_seg "hoge" [] (S 26 13)])) (S 26 17) [(EPath [] (mk_path false [mk_seg "flag" [] (S 26 18)]))] []) [] None [O S ";" 26 23]); (SItem (IFn [mk_attr false (S 28 5) (MNameValue (mk_path false [mk_seg "hooq" [] (S 28 7); mk_seg "tag" [] (S 28 13)]) (VStr "nest" (S 28 19)))] [] (mk_sig "fuga" (RetPath (mk_path false [mk_seg "u32" [] (S 29 28)])) [I S "fn" 29 5; I S "fuga" 29 8; G S Parenth [I S "flag" 29 13; O S ":" 29 17; I S "bool" 29 19] 29 12; O S "-" 29 25; O S ">" 29 26; I S "u32" 29 28]) (S 29 32) [(SLocalInit [] [I S "let" 30 9; I S "a" 30 13; O S "=" 30 15] (EClosure [] [O S "|" 30 17; I S "b" 30 18; O S "|" 30 19] RetNone (EIf [] [I S "if" 30 21] (EPath [] (mk_path false [mk_seg "b" [] (S 30 24)])) (S 30 26) [(SExpr (ECall [] (EPath [] (mk_path false [mk_seg "Ok" [] (S 30 28)])) (S 30 30) [(ELit [] (LOther "10") (S 30 31))] []) None)] [I S "else" 30 37] (Some (EBlock [] [] (S 30 42) [(SExpr (ECall [] (EPath [] (mk_path false [mk_seg "Err" [] (S 30 44)])) (S 30 47) [(ETuple [] (S 30 48) [] [])] []) None)])))) [] None [O S ";" 30 53]); (SLocalInit [] [I S "let" 31 9; I S "b" 31 13; O S "=" 31 15] (EClosure [] [O S "|" 31 17; O S "|" 31 18; O S "-" 31 20; O S ">" 31 21; I S "Result" 31 23; O S "<" 31 29; I S "u32" 31 30; O S "," 31 33; G S Parenth [] 31 35; O S ">" 31 37] (RetPath (mk_path false [mk_seg "Result" [O S "<" 31 29; I S "u32" 31 30; O S "," 31 33; G S Parenth [] 31 35; O S ">" 31 37] (S 31 23)])) (EBlock [] [] (S 31 39) [(SExpr (ECall [] (EPath [] (mk_path false [mk_seg "Ok" [] (S 31 41)])) (S 31 43) [(ELit [] (LOther "10") (S 31 44))] []) None)])) [] None [O S ";" 31 49]); (SLocalInit [] [I S "let" 32 9; I S "c" 32 13; O S "=" 32 15] (EClosure [] [O S "|" 32 17; O S "|" 32 18; O S "-" 32 20; O S ">" 32 21; I S "Result" 32 23; O S "<" 32 29; I S "u32" 32 30; O S "," 32 33; G S Parenth [] 32 35; O S ">" 32 37] (RetPath (mk_path false [mk_seg "Result" [O S "<" 32 29; I S "u32" 32 30; O S "," 32 33; G S Parenth [] 32 35; O S ">" 32 37] (S 32 23)])) (EBlock [] [] (S 32 39) [(SExpr (ECall [] (EPath [] (mk_path false [mk_seg "b" [] (S 32 41)])) (S 32 42) [] []) None)])) [] None [O S ";" 32 46]); (SLocalInit [] [I S "let" 33 9; I S "d" 33 13; O S "=" 33 15] (EClosure [] [O S "|" 33 17; O S "|" 33 18; O S "-" 33 20; O S ">" 33 21; I S "Result" 33 23; O S "<" 33 29; I S "u32" 33 30; O S "," 33 33; G S Parenth [] 33 35; O S ">" 33 37] (RetPath (mk_path false [mk_seg "Result" [O S "<" 33 29; I S "u32" 33 30; O S "," 33 33; G S Parenth [] 33 35; O S ">" 33 37] (S 33 23)])) (EBlock [] [] (S 33 39) [(SExpr (EIf [] [I S "if" 34 13] (EPath [] (mk_path false [mk_seg "flag" [] (S 34 16)])) (S 34 21) [(SExpr (EBlock [mk_attr false (S 35 17) (MNameValue (mk_path false [mk_seg "hooq" [] (S 35 19); mk_seg "tag" [] (S 35 25)]) (VStr "return in deep" (S 35 31)))] [] (S 36 17) [(SExpr (EReturn [] (S 37 21) (Some (ECall [] (EPath [] (mk_path false [mk_seg "c" [] (S 37 28)])) (S 37 29) [] []))) (Some (S 37 31)))]) None)] [] None) None); (SItem (IFn [] [] (mk_sig "dd" (RetPath (mk_path false [mk_seg "u32" [] (S 40 24)])) [I S "fn" 40 13; I S "dd" 40 16; G S Parenth [] 40 18; O S "-" 40 21; O S ">" 40 22; I S "u32" 40 24]) (S 40 28) [(SExpr (ELit [] (LOther "10") (S 41 17)) None)])); (SLocalInit [] [I S "let" 43 13; I S "ddd" 43 17; O S "=" 43 21] (EClosure [] [O S "|" 43 23; O S "|" 43 24] RetNone (EBlock [] [] (S 43 26) [(SExpr (EIf [] [I S "if" 44 17] (EPath [] (mk_path false [mk_seg "flag" [] (S 44 20)])) (S 44 25) [(SExpr (EReturn [] (S 45 21) (Some (ECall [] (EPath [] (mk_path false [mk_seg "hoge" [] (S 45 28)])) (S 45 32) [(EPath [] (mk_path false [mk_seg "true" [] (S 45 33)]))] []))) (Some (S 45 38)))] [] None) None); (SLocalInit [] [I S "let" 48 17; I S "dddd" 48 21; O S "=" 48 26] (EClosure [] [O S "|" 48 28; O S "|" 48 29] RetNone (EBlock [] [] (S 48 31) [(SExpr (EIf [] [I S "if" 49 21] (EPath [] (mk_path false [mk_seg "flag" [] (S 49 24)])) (S 49 29) [(SExpr (EReturn [] (S 50 25) (Some (ECall [] (EPath [] (mk_path false [mk_seg "b" [] (S 50 32)])) (S 50 33) [] []))) (Some (S 50 35)))] [] None) None); (SLocalInit [] [I S "let" 53 21; I S "ddddd" 53 25; O S "=" 53 31] (EClosure [] [O S "|" 53 33; O S "|" 53 34] RetNone (EBlock [] [] (S 53 36) [(SLocalInit [] [I S "let" 54 25; I S "res" 54 29; O S "=" 54 33] (EBinary [] (ETry [] (ECall [] (EPath [] (mk_path false [mk_seg "c" [] (S 54 35)])) (S 54 36) [] []) (S 54 38)) [O S "+" 54 40] (ELit [] (LOther "10") (S 54 42))) [] None [O S ";" 54 44]); (SExpr (ECall [] (EPath [] (mk_path false [mk_seg "Result" [O S ":" 56 31; O S ":" 56 32; O S "<" 56 33; I S "u32" 56 34; O S "," 56 37; G S Parenth [] 56 39; O S ">" 56 41] (S 56 25); mk_seg "Ok" [] (S 56 44)])) (S 56 46) [(EPath [] (mk_path false [mk_seg "res" [] (S 56 47)]))] []) None)])) [] None [O S ";" 57 22]); (SExpr (ECall [] (EPath [] (mk_path false [mk_seg "ddddd" [] (S 58 21)])) (S 58 26) [] []) None)])) [] None [O S ";" 59 18]); (SExpr (EBinary [] (ELit [] (LOther "20") (S 61 17)) [O S "+" 61 20] (EMethodCall [] (ECall [] (EPath [] (mk_path false [mk_seg "dddd" [] (S 61 22)])) (S 61 26) [] []) [O S "." 61 28; I S "unwrap" 61 29] (S 61 35) [] [])) None)])) [] None [O S ";" 62 14]); (SExpr (ECall [] (EPath [] (mk_path false [mk_seg "Ok" [] (S 64 13)])) (S 64 15) [(EBinary [] (ECall [] (EPath [] (mk_path false [mk_seg "dd" [] (S 64 16)])) (S 64 18) [] []) [O S "+" 64 21] (ECall [] (EPath [] (mk_path false [mk_seg "ddd" [] (S 64 23)])) (S 64 26) [] []))] []) None)])) [] None [O S ";" 65 10]); (SLocalInit [] [I S "let" 66 9; I S "e" 66 13; O S "=" 66 15] (EClosure [] [O S "|" 66 17; O S "|" 66 18] RetNone (EBlock [] [] (S 66 20) [(SExpr (EIf [] [I S "if" 67 13] (EPath [] (mk_path false [mk_seg "flag" [] (S 67 16)])) (S 67 21) [(SExpr (ECall [] (EPath [] (mk_path false [mk_seg "Ok" [] (S 68 17)])) (S 68 19) [(EBinary [] (EBinary [] (EBinary [] (ETry [] (ECall [] (EPath [] (mk_path false [mk_seg "a" [] (S 68 20)])) (S 68 21) [(EPath [] (mk_path false [mk_seg "true" [] (S 68 22)]))] []) (S 68 27)) [O S "+" 68 29] (ETry [] (ECall [] (EPath [] (mk_path false [mk_seg "b" [] (S 68 31)])) (S 68 32) [] []) (S 68 34))) [O S "+" 68 36] (ETry [] (ECall [] (EPath [] (mk_path false [mk_seg "c" [] (S 68 38)])) (S 68 39) [] []) (S 68 41))) [O S "+" 68 43] (ETry [] (ECall [] (EPath [] (mk_path false [mk_seg "d" [] (S 68 45)])) (S 68 46) [] []) (S 68 48)))] []) None)] [I S "else" 69 15] (Some (EBlock [] [] (S 69 20) [(SExpr (ECall [] (EPath [] (mk_path false [mk_seg "Err" [] (S 70 17)])) (S 70 20) [(ETuple [] (S 70 21) [] [])] []) None)]))) None)])) [] None [O S ";" 72 10]); (SLocalInit [] [I S "let" 74 9; I S "v" 74 13; O S "=" 74 15] (EMethodCall [] (ECall [] (EPath [] (mk_path false [mk_seg "e" [] (S 74 17)])) (S 74 18) [] []) [O S "." 74 20; I S "unwrap" 74 21] (S 74 27) [] []) [] None [O S ";" 74 29]); (SExpr (EBinary [] (EPath [] (mk_path false [mk_seg "v" [] (S 76 9)])) [O S "+" 76 11] (ELit [] (LOther "10") (S 76 13))) None)])); (SLocalInit [] [I S "let" 79 5; I S "_" 79 9; O S "=" 79 11] (ECall [] (EPath [] (mk_path false [mk_seg "fuga" [] (S 79 13)])) (S 79 17) [(EPath [] (mk_path false [mk_seg "flog" [] (S 79 18)]))] []) [] None [O S ";" 79 23]); (SExpr (ECall [] (EPath [] (mk_path false [mk_seg "Err" [] (S 81 5)])) (S 81 8) [(ETuple [] (S 81 9) [] [])] []) None)]).
Definition args_special_fn_special_0 : list meta := let S := at_ "hooq-macros/tests/special/fn_special.rs" in [].
Definition rec_special_fn_special_0 : list string :=
  ["fn func ( flag : bool , flog : bool ) - > Result < ( ) , ( ) > { if flag { return Err ( ( ) ) . inspect ( | _ | { { : : std : : io : : _print (";
   "format_args ! ( ""tag:\s{0}\n"" , ""return"" ) ) ; } ; } ) ; } fn hoge ( flag : bool ) - > u32 { if flag { return 1 ; } 0 } let _ = hoge ( flag ) ; fn";
   "fuga ( flag : bool ) - > u32 { let a = | b | if b { Ok ( 10 ) . inspect ( | _ | { { : : std : : io : : _print ( format_args ! ( ""tag:\s{0}\n"" , ""nest""";
   ") ) ; } ; } ) } else { Err ( ( ) ) . inspect ( | _ | { { : : std : : io : : _print ( format_args ! ( ""tag:\s{0}\n"" , ""nest"" ) ) ; } ; } ) } ; let b =";
   "| | - > Result < u32 , ( ) > { Ok ( 10 ) . inspect ( | _ | { { : : std : : io : : _print ( format_args ! ( ""tag:\s{0}\n"" , ""nest"" ) ) ; } ; } ) } ;";
   "let c = | | - > Result < u32 , ( ) > { b ( ) . inspect ( | _ | { { : : std : : io : : _print ( format_args ! ( ""tag:\s{0}\n"" , ""nest"" ) ) ; } ; } ) }";
   "; let d = | | - > Result < u32 , ( ) > { if flag { { return c ( ) . inspect ( | _ | { { : : std : : io : : _print ( format_args ! ( ""tag:\s{0}\n"" ,";
   """return\sin\sdeep"" ) ) ; } ; } ) ; } } fn dd ( ) - > u32 { 10 } let ddd = | | { if flag { return hoge ( true ) ; } let dddd = | | { if flag { return b";
   "( ) ; } let ddddd = | | { let res = c ( ) . inspect ( | _ | { { : : std : : io : : _print ( format_args ! ( ""tag:\s{0}\n"" , ""nest"" ) ) ; } ; } ) ? +";
   "10 ; Result : : < u32 , ( ) > : : Ok ( res ) . inspect ( | _ | { { : : std : : io : : _print ( format_args ! ( ""tag:\s{0}\n"" , ""nest"" ) ) ; } ; } ) }";
   "; ddddd ( ) } ; 20 + dddd ( ) . unwrap ( ) } ; Ok ( dd ( ) + ddd ( ) ) . inspect ( | _ | { { : : std : : io : : _print ( format_args ! ( ""tag:\s{0}\n""";
   ", ""nest"" ) ) ; } ; } ) } ; let e = | | if flag { Ok ( a ( true ) . inspect ( | _ | { { : : std : : io : : _print ( format_args ! ( ""tag:\s{0}\n"" ,";
   """nest"" ) ) ; } ; } ) ? + b ( ) . inspect ( | _ | { { : : std : : io : : _print ( format_args ! ( ""tag:\s{0}\n"" , ""nest"" ) ) ; } ; } ) ? + c ( ) .";
   "inspect ( | _ | { { : : std : : io : : _print ( format_args ! ( ""tag:\s{0}\n"" , ""nest"" ) ) ; } ; } ) ? + d ( ) . inspect ( | _ | { { : : std : : io :";
   ": _print ( format_args ! ( ""tag:\s{0}\n"" , ""nest"" ) ) ; } ; } ) ? ) . inspect ( | _ | { { : : std : : io : : _print ( format_args ! ( ""tag:\s{0}\n"" ,";
   """nest"" ) ) ; } ; } ) } else { Err ( ( ) ) . inspect ( | _ | { { : : std : : io : : _print ( format_args ! ( ""tag:\s{0}\n"" , ""nest"" ) ) ; } ; } ) } ;";
   "let v = e ( ) . unwrap ( ) ; v + 10 } let _ = fuga ( flog ) ; Err ( ( ) ) . inspect ( | _ | { { : : std : : io : : _print ( format_args ! (";
   """tag:\s{0}\n"" , ""(no\stag)"" ) ) ; } ; } ) }"].
(** func *)
Example recorded_special_fn_special_0 : expanded su_special_fn_special args_special_fn_special_0 it_special_fn_special_0 = words rec_special_fn_special_0.
Proof. vm_compute. reflexivity. Qed.
(** ** hooq-macros/tests/special/inert_attr_setting/hook_targets.rs *)
Definition doc_special_inert_attr_setting_hook_targets : list (string * ftable) := [].
Definition texts_special_inert_attr_setting_hook_targets : list (string * list tt) := let S := at_ "" in [].
Definition strs_special_inert_attr_setting_hook_targets : list (string * string) :=
  [("10 > hoge ( ) ? |", "  10>    hoge()?
    |");
   ("13 > return Err ( ( ) ) |", "  13>    return Err(())
    |");
   ("16 > Err ( ( ) ) |", "  16>    Err(())
    |");
   ("22 > hoge ( ) ? |", "  22>    hoge()?
    |");
   ("37 > return Err ( ( ) ) |", "  37>    return Err(())
    |");
   ("52 > Err ( ( ) ) |", "  52>    Err(())
    |");
   ("58 > hoge ( ) ? |", "  58>    hoge()?
    |");
   ("61 > return Err ( ( ) ) |", "  61>    return Err(())
    |");
   ("< hooq_root > / tests / special / inert_attr_setting / hook_targets . rs", "<hooq_root>/tests/special/inert_attr_setting/hook_targets.rs");
   ("[ { 0 } : { 1 } : { 2 } ] { 3 : ? } { 4 }", "[{0}:{1}:{2}] {3:?}
{4}
")].
Definition ends_special_inert_attr_setting_hook_targets : list (N * N * (N * N * string)) :=
  [(3, 2, (3, 8, "")); (4, 8, (4, 10, "")); (4, 21, (4, 23, "")); (4, 25, (4, 27, "")); (4, 29, (6, 2, "")); (5, 7, (5, 11, "")); (5, 8, (5, 10, "")); (8, 2, (8, 8, "")); (9, 11, (9, 23, "")); (9, 34, (9, 36, "")); (9, 38, (9, 40, "")); (9, 42, (17, 2, "")); (10, 9, (10, 11, "")); (12, 14, (14, 6, "")); (13, 19, (13, 23, "")); (13, 20, (13, 22, "")); (16, 8, (16, 12, "")); (16, 9, (16, 11, "")); (19, 2, (19, 8, "")); (20, 2, (20, 27, "")); (20, 21, (20, 26, "")); (20, 22, (20, 25, """?""")); (21, 10, (21, 22, "")); (21, 33, (21, 35, "")); (21, 37, (21, 39, "")); (21, 41, (29, 2, "")); (22, 9, (22, 11, "")); (24, 14, (26, 6, "")); (25, 19, (25, 23, "")); (25, 20, (25, 22, "")); (28, 8, (28, 12, "")); (28, 9, (28, 11, "")); (31, 2, (31, 8, "")); (32, 2, (32, 32, "")); (32, 21, (32, 31, "")); (32, 22, (32, 30, """return""")); (33, 15, (33, 27, "")); (33, 38, (33, 40, "")); (33, 42, (33, 44, "")); (33, 46, (41, 2, "")); (34, 9, (34, 11, "")); (36, 14, (38, 6, "")); (37, 19, (37, 23, "")); (37, 20, (37, 22, "")); (40, 8, (40, 12, "")); (40, 9, (40, 11, "")); (43, 2, (43, 8, "")); (44, 2, (44, 35, "")); (44, 21, (44, 34, "")); (44, 22, (44, 33, """tail_expr""")); (45, 17, (45, 29, "")); (45, 40, (45, 42, "")); (45, 44, (45, 46, "")); (45, 48, (53, 2, "")); (46, 9, (46, 11, "")); (48, 14, (50, 6, "")); (49, 19, (49, 23, "")); (49, 20, (49, 22, "")); (52, 8, (52, 12, "")); (52, 9, (52, 11, "")); (55, 2, (55, 8, "")); (56, 2, (56, 44, "")); (56, 21, (56, 43, "")); (56, 22, (56, 30, """return""")); (56, 32, (56, 42, """question""")); (57, 23, (57, 35, "")); (57, 46, (57, 48, "")); (57, 50, (57, 52, "")); (57, 54, (65, 2, "")); (58, 9, (58, 11, "")); (60, 14, (62, 6, "")); (61, 19, (61, 23, "")); (61, 20, (61, 22, "")); (64, 8, (64, 12, "")); (64, 9, (64, 11, "")); (67, 2, (67, 8, "")); (68, 8, (68, 10, "")); (68, 11, (74, 2, "")); (69, 12, (69, 18, "")); (69, 29, (69, 31, "")); (70, 11, (70, 17, "")); (70, 28, (70, 30, "")); (71, 16, (71, 22, "")); (71, 33, (71, 35, "")); (72, 18, (72, 24, "")); (72, 35, (72, 37, "")); (73, 24, (73, 30, "")); (73, 41, (73, 43, ""))].
Definition su_special_inert_attr_setting_hook_targets : setup := mk_setup (mk_features false false true false false "hooq") doc_special_inert_attr_setting_hook_targets texts_special_inert_attr_setting_hook_targets strs_special_inert_attr_setting_hook_targets [] ends_special_inert_attr_setting_hook_targets "hook_targets".
Definition it_special_inert_attr_setting_hook_targets_0 : item := let S := at_ "<hooq_root>/tests/special/inert_attr_setting/hook_targets.rs" in
  (IFn [] [] (mk_sig "hoge" (RetPath (mk_path false [mk_seg "Result" [O S "<" 4 20; G S Parenth [] 4 21; O S "," 4 23; G S Parenth [] 4 25; O S ">" 4 27] (S 4 14)])) [I S "fn" 4 1; I S "hoge" 4 4; G S Parenth [] 4 8; O S "-" 4 11; O S ">" 4 12; I S "Result" 4 14; O S "<" 4 20; G S Parenth [] 4 21; O S "," 4 23; G S Parenth [] 4 25; O S ">" 4 27]) (S 4 29) [(SExpr (ECall [] (EPath [] (mk_path false [mk_seg "Ok" [] (S 5 5)])) (S 5 7) [(ETuple [] (S 5 8) [] [])] []) None)]).
Definition args_special_inert_attr_setting_hook_targets_0 : list meta := let S := at_ "<hooq_root>/tests/special/inert_attr_setting/hook_targets.rs" in [].
Definition rec_special_inert_attr_setting_hook_targets_0 : list string :=
  ["fn hoge ( ) - > Result < ( ) , ( ) > { Ok ( ( ) ) }"].
Definition it_special_inert_attr_setting_hook_targets_1 : item := let S := at_ "<hooq_root>/tests/special/inert_attr_setting/hook_targets.rs" in
  (IFn [] [] (mk_sig "default" (RetPath (mk_path false [mk_seg "Result" [O S "<" 9 33; G S Parenth [] 9 34; O S "," 9 36; G S Parenth [] 9 38; O S ">" 9 40] (S 9 27)])) [I S "fn" 9 1; I S "default" 9 4; G S Parenth [I S "flag" 9 12; O S ":" 9 16; I S "bool" 9 18] 9 11; O S "-" 9 24; O S ">" 9 25; I S "Result" 9 27; O S "<" 9 33; G S Parenth [] 9 34; O S "," 9 36; G S Parenth [] 9 38; O S ">" 9 40]) (S 9 42) [(SExpr (ETry [] (ECall [] (EPath [] (mk_path false [mk_seg "hoge" [] (S 10 5)])) (S 10 9) [] []) (S 10 11)) (Some (S 10 12))); (SExpr (EIf [] [I S "if" 12 5] (EUnary [] [O S "!" 12 8] (EPath [] (mk_path false [mk_seg "flag" [] (S 12 9)]))) (S 12 14) [(SExpr (EReturn [] (S 13 9) (Some (ECall [] (EPath [] (mk_path false [mk_seg "Err" [] (S 13 16)])) (S 13 19) [(ETuple [] (S 13 20) [] [])] []))) (Some (S 13 23)))] [] None) None); (SExpr (ECall [] (EPath [] (mk_path false [mk_seg "Err" [] (S 16 5)])) (S 16 8) [(ETuple [] (S 16 9) [] [])] []) None)]).
Definition args_special_inert_attr_setting_hook_targets_1 : list meta := let S := at_ "<hooq_root>/tests/special/inert_attr_setting/hook_targets.rs" in [].
Definition rec_special_inert_attr_setting_hook_targets_1 : list string :=
  ["fn default ( flag : bool ) - > Result < ( ) , ( ) > { hoge ( ) . inspect_err ( | e | { let path =";
   """<hooq_root>/tests/special/inert_attr_setting/hook_targets.rs"" ; let line = 10usize ; let col = 11usize ; let expr =";
   """\s\s10>\s\s\s\shoge()?\n\s\s\s\s|"" ; { : : std : : io : : _eprint ( format_args ! ( ""[{0}:{1}:{2}]\s{3:?}\n{4}\n"" , path , line , col , e , expr ) )";
   "; } ; } ) ? ; if ! flag { return Err ( ( ) ) . inspect_err ( | e | { let path = ""<hooq_root>/tests/special/inert_attr_setting/hook_targets.rs"" ; let";
   "line = 13usize ; let col = 9usize ; let expr = ""\s\s13>\s\s\s\sreturn\sErr(())\n\s\s\s\s|"" ; { : : std : : io : : _eprint ( format_args ! (";
   """[{0}:{1}:{2}]\s{3:?}\n{4}\n"" , path , line , col , e , expr ) ) ; } ; } ) ; } Err ( ( ) ) . inspect_err ( | e | { let path =";
   """<hooq_root>/tests/special/inert_attr_setting/hook_targets.rs"" ; let line = 16usize ; let col = 5usize ; let expr =";
   """\s\s16>\s\s\s\sErr(())\n\s\s\s\s|"" ; { : : std : : io : : _eprint ( format_args ! ( ""[{0}:{1}:{2}]\s{3:?}\n{4}\n"" , path , line , col , e , expr ) )";
   "; } ; } ) }"].
Definition it_special_inert_attr_setting_hook_targets_2 : item := let S := at_ "<hooq_root>/tests/special/inert_attr_setting/hook_targets.rs" in
  (IFn [mk_attr false (S 20 1) (MList (mk_path false [mk_seg "hooq" [] (S 20 3); mk_seg "hook_targets" [] (S 20 9)]) Parenth [L S (LStr "?") 20 22] (S 20 21))] [] (mk_sig "q_only" (RetPath (mk_path false [mk_seg "Result" [O S "<" 21 32; G S Parenth [] 21 33; O S "," 21 35; G S Parenth [] 21 37; O S ">" 21 39] (S 21 26)])) [I S "fn" 21 1; I S "q_only" 21 4; G S Parenth [I S "flag" 21 11; O S ":" 21 15; I S "bool" 21 17] 21 10; O S "-" 21 23; O S ">" 21 24; I S "Result" 21 26; O S "<" 21 32; G S Parenth [] 21 33; O S "," 21 35; G S Parenth [] 21 37; O S ">" 21 39]) (S 21 41) [(SExpr (ETry [] (ECall [] (EPath [] (mk_path false [mk_seg "hoge" [] (S 22 5)])) (S 22 9) [] []) (S 22 11)) (Some (S 22 12))); (SExpr (EIf [] [I S "if" 24 5] (EUnary [] [O S "!" 24 8] (EPath [] (mk_path false [mk_seg "flag" [] (S 24 9)]))) (S 24 14) [(SExpr (EReturn [] (S 25 9) (Some (ECall [] (EPath [] (mk_path false [mk_seg "Err" [] (S 25 16)])) (S 25 19) [(ETuple [] (S 25 20) [] [])] []))) (Some (S 25 23)))] [] None) None); (SExpr (ECall [] (EPath [] (mk_path false [mk_seg "Err" [] (S 28 5)])) (S 28 8) [(ETuple [] (S 28 9) [] [])] []) None)]).
Definition args_special_inert_attr_setting_hook_targets_2 : list meta := let S := at_ "<hooq_root>/tests/special/inert_attr_setting/hook_targets.rs" in [].
Definition rec_special_inert_attr_setting_hook_targets_2 : list string :=
  ["fn q_only ( flag : bool ) - > Result < ( ) , ( ) > { hoge ( ) . inspect_err ( | e | { let path =";
   """<hooq_root>/tests/special/inert_attr_setting/hook_targets.rs"" ; let line = 22usize ; let col = 11usize ; let expr =";
   """\s\s22>\s\s\s\shoge()?\n\s\s\s\s|"" ; { : : std : : io : : _eprint ( format_args ! ( ""[{0}:{1}:{2}]\s{3:?}\n{4}\n"" , path , line , col , e , expr ) )";
   "; } ; } ) ? ; if ! flag { return Err ( ( ) ) ; } Err ( ( ) ) }"].
Definition it_special_inert_attr_setting_hook_targets_3 : item := let S := at_ "<hooq_root>/tests/special/inert_attr_setting/hook_targets.rs" in
  (IFn [mk_attr false (S 32 1) (MList (mk_path false [mk_seg "hooq" [] (S 32 3); mk_seg "hook_targets" [] (S 32 9)]) Parenth [L S (LStr "return") 32 22] (S 32 21))] [] (mk_sig "return_only" (RetPath (mk_path false [mk_seg "Result" [O S "<" 33 37; G S Parenth [] 33 38; O S "," 33 40; G S Parenth [] 33 42; O S ">" 33 44] (S 33 31)])) [I S "fn" 33 1; I S "return_only" 33 4; G S Parenth [I S "flag" 33 16; O S ":" 33 20; I S "bool" 33 22] 33 15; O S "-" 33 28; O S ">" 33 29; I S "Result" 33 31; O S "<" 33 37; G S Parenth [] 33 38; O S "," 33 40; G S Parenth [] 33 42; O S ">" 33 44]) (S 33 46) [(SExpr (ETry [] (ECall [] (EPath [] (mk_path false [mk_seg "hoge" [] (S 34 5)])) (S 34 9) [] []) (S 34 11)) (Some (S 34 12))); (SExpr (EIf [] [I S "if" 36 5] (EUnary [] [O S "!" 36 8] (EPath [] (mk_path false [mk_seg "flag" [] (S 36 9)]))) (S 36 14) [(SExpr (EReturn [] (S 37 9) (Some (ECall [] (EPath [] (mk_path false [mk_seg "Err" [] (S 37 16)])) (S 37 19) [(ETuple [] (S 37 20) [] [])] []))) (Some (S 37 23)))] [] None) None); (SExpr (ECall [] (EPath [] (mk_path false [mk_seg "Err" [] (S 40 5)])) (S 40 8) [(ETuple [] (S 40 9) [] [])] []) None)]).
Definition args_special_inert_attr_setting_hook_targets_3 : list meta := let S := at_ "<hooq_root>/tests/special/inert_attr_setting/hook_targets.rs" in [].
Definition rec_special_inert_attr_setting_hook_targets_3 : list string :=
  ["fn return_only ( flag : bool ) - > Result < ( ) , ( ) > { hoge ( ) ? ; if ! flag { return Err ( ( ) ) . inspect_err ( | e | { let path =";
   """<hooq_root>/tests/special/inert_attr_setting/hook_targets.rs"" ; let line = 37usize ; let col = 9usize ; let expr =";
   """\s\s37>\s\s\s\sreturn\sErr(())\n\s\s\s\s|"" ; { : : std : : io : : _eprint ( format_args ! ( ""[{0}:{1}:{2}]\s{3:?}\n{4}\n"" , path , line , col , e ,";
   "expr ) ) ; } ; } ) ; } Err ( ( ) ) }"].
Definition it_special_inert_attr_setting_hook_targets_4 : item := let S := at_ "<hooq_root>/tests/special/inert_attr_setting/hook_targets.rs" in
  (IFn [mk_attr false (S 44 1) (MList (mk_path false [mk_seg "hooq" [] (S 44 3); mk_seg "hook_targets" [] (S 44 9)]) Parenth [L S (LStr "tail_expr") 44 22] (S 44 21))] [] (mk_sig "tailexpr_only" (RetPath (mk_path false [mk_seg "Result" [O S "<" 45 39; G S Parenth [] 45 40; O S "," 45 42; G S Parenth [] 45 44; O S ">" 45 46] (S 45 33)])) [I S "fn" 45 1; I S "tailexpr_only" 45 4; G S Parenth [I S "flag" 45 18; O S ":" 45 22; I S "bool" 45 24] 45 17; O S "-" 45 30; O S ">" 45 31; I S "Result" 45 33; O S "<" 45 39; G S Parenth [] 45 40; O S "," 45 42; G S Parenth [] 45 44; O S ">" 45 46]) (S 45 48) [(SExpr (ETry [] (ECall [] (EPath [] (mk_path false [mk_seg "hoge" [] (S 46 5)])) (S 46 9) [] []) (S 46 11)) (Some (S 46 12))); (SExpr (EIf [] [I S "if" 48 5] (EUnary [] [O S "!" 48 8] (EPath [] (mk_path false [mk_seg "flag" [] (S 48 9)]))) (S 48 14) [(SExpr (EReturn [] (S 49 9) (Some (ECall [] (EPath [] (mk_path false [mk_seg "Err" [] (S 49 16)])) (S 49 19) [(ETuple [] (S 49 20) [] [])] []))) (Some (S 49 23)))] [] None) None); (SExpr (ECall [] (EPath [] (mk_path false [mk_seg "Err" [] (S 52 5)])) (S 52 8) [(ETuple [] (S 52 9) [] [])] []) None)]).
Definition args_special_inert_attr_setting_hook_targets_4 : list meta := let S := at_ "<hooq_root>/tests/special/inert_attr_setting/hook_targets.rs" in [].
Definition rec_special_inert_attr_setting_hook_targets_4 : list string :=
  ["fn tailexpr_only ( flag : bool ) - > Result < ( ) , ( ) > { hoge ( ) ? ; if ! flag { return Err ( ( ) ) ; } Err ( ( ) ) . inspect_err ( | e | { let";
   "path = ""<hooq_root>/tests/special/inert_attr_setting/hook_targets.rs"" ; let line = 52usize ; let col = 5usize ; let expr =";
   """\s\s52>\s\s\s\sErr(())\n\s\s\s\s|"" ; { : : std : : io : : _eprint ( format_args ! ( ""[{0}:{1}:{2}]\s{3:?}\n{4}\n"" , path , line , col , e , expr ) )";
   "; } ; } ) }"].
Definition it_special_inert_attr_setting_hook_targets_5 : item := let S := at_ "<hooq_root>/tests/special/inert_attr_setting/hook_targets.rs" in
  (IFn [mk_attr false (S 56 1) (MList (mk_path false [mk_seg "hooq" [] (S 56 3); mk_seg "hook_targets" [] (S 56 9)]) Parenth [L S (LStr "return") 56 22; O S "," 56 30; L S (LStr "question") 56 32] (S 56 21))] [] (mk_sig "return_and_question" (RetPath (mk_path false [mk_seg "Result" [O S "<" 57 45; G S Parenth [] 57 46; O S "," 57 48; G S Parenth [] 57 50; O S ">" 57 52] (S 57 39)])) [I S "fn" 57 1; I S "return_and_question" 57 4; G S Parenth [I S "flag" 57 24; O S ":" 57 28; I S "bool" 57 30] 57 23; O S "-" 57 36; O S ">" 57 37; I S "Result" 57 39; O S "<" 57 45; G S Parenth [] 57 46; O S "," 57 48; G S Parenth [] 57 50; O S ">" 57 52]) (S 57 54) [(SExpr (ETry [] (ECall [] (EPath [] (mk_path false [mk_seg "hoge" [] (S 58 5)])) (S 58 9) [] []) (S 58 11)) (Some (S 58 12))); (SExpr (EIf [] [I S "if" 60 5] (EUnary [] [O S "!" 60 8] (EPath [] (mk_path false [mk_seg "flag" [] (S 60 9)]))) (S 60 14) [(SExpr (EReturn [] (S 61 9) (Some (ECall [] (EPath [] (mk_path false [mk_seg "Err" [] (S 61 16)])) (S 61 19) [(ETuple [] (S 61 20) [] [])] []))) (Some (S 61 23)))] [] None) None); (SExpr (ECall [] (EPath [] (mk_path false [mk_seg "Err" [] (S 64 5)])) (S 64 8) [(ETuple [] (S 64 9) [] [])] []) None)]).
Definition args_special_inert_attr_setting_hook_targets_5 : list meta := let S := at_ "<hooq_root>/tests/special/inert_attr_setting/hook_targets.rs" in [].
Definition rec_special_inert_attr_setting_hook_targets_5 : list string :=
  ["fn return_and_question ( flag : bool ) - > Result < ( ) , ( ) > { hoge ( ) . inspect_err ( | e | { let path =";
   """<hooq_root>/tests/special/inert_attr_setting/hook_targets.rs"" ; let line = 58usize ; let col = 11usize ; let expr =";
   """\s\s58>\s\s\s\shoge()?\n\s\s\s\s|"" ; { : : std : : io : : _eprint ( format_args ! ( ""[{0}:{1}:{2}]\s{3:?}\n{4}\n"" , path , line , col , e , expr ) )";
   "; } ; } ) ? ; if ! flag { return Err ( ( ) ) . inspect_err ( | e | { let path = ""<hooq_root>/tests/special/inert_attr_setting/hook_targets.rs"" ; let";
   "line = 61usize ; let col = 9usize ; let expr = ""\s\s61>\s\s\s\sreturn\sErr(())\n\s\s\s\s|"" ; { : : std : : io : : _eprint ( format_args ! (";
   """[{0}:{1}:{2}]\s{3:?}\n{4}\n"" , path , line , col , e , expr ) ) ; } ; } ) ; } Err ( ( ) ) }"].
(** hoge *)
Example recorded_special_inert_attr_setting_hook_targets_0 : expanded su_special_inert_attr_setting_hook_targets args_special_inert_attr_setting_hook_targets_0 it_special_inert_attr_setting_hook_targets_0 = words rec_special_inert_attr_setting_hook_targets_0.
Proof. vm_compute. reflexivity. Qed.
(** default *)
Example recorded_special_inert_attr_setting_hook_targets_1 : expanded su_special_inert_attr_setting_hook_targets args_special_inert_attr_setting_hook_targets_1 it_special_inert_attr_setting_hook_targets_1 = words rec_special_inert_attr_setting_hook_targets_1.
Proof. vm_compute. reflexivity. Qed.
(** q_only *)
Example recorded_special_inert_attr_setting_hook_targets_2 : expanded su_special_inert_attr_setting_hook_targets args_special_inert_attr_setting_hook_targets_2 it_special_inert_attr_setting_hook_targets_2 = words rec_special_inert_attr_setting_hook_targets_2.
Proof. vm_compute. reflexivity. Qed.
(** return_only *)
Example recorded_special_inert_attr_setting_hook_targets_3 : expanded su_special_inert_attr_setting_hook_targets args_special_inert_attr_setting_hook_targets_3 it_special_inert_attr_setting_hook_targets_3 = words rec_special_inert_attr_setting_hook_targets_3.
Proof. vm_compute. reflexivity. Qed.
(** tailexpr_only *)
Example recorded_special_inert_attr_setting_hook_targets_4 : expanded su_special_inert_attr_setting_hook_targets args_special_inert_attr_setting_hook_targets_4 it_special_inert_attr_setting_hook_targets_4 = words rec_special_inert_attr_setting_hook_targets_4.
Proof. vm_compute. reflexivity. Qed.
(** return_and_question *)
Example recorded_special_inert_attr_setting_hook_targets_5 : expanded su_special_inert_attr_setting_hook_targets args_special_inert_attr_setting_hook_targets_5 it_special_inert_attr_setting_hook_targets_5 = words rec_special_inert_attr_setting_hook_targets_5.
Proof. vm_compute. reflexivity. Qed.
(** ** hooq-macros/tests/special/inert_attr_setting/ignore_tail_expr_idents.rs *)
Definition doc_special_inert_attr_setting_ignore_tail_expr_idents : list (string * ftable) := [].
Definition texts_special_inert_attr_setting_ignore_tail_expr_idents : list (string * list tt) := let S := at_ "" in [].
Definition strs_special_inert_attr_setting_ignore_tail_expr_idents : list (string * string) :=
  [("19 > enresult ( ( ) ) ? |", "  19>    enresult(())?
    |");
   ("22 > enresult ( false ) ? |", "  22>    enresult(false)?
    |");
   ("23 > return Right ( ) |", "  23>    return Right()
    |");
   ("26 > Right ( ) |", "  26>    Right()
    |");
   ("29 > enresult ( false ) ? |", "  29>    enresult(false)?
    |");
   ("34 > enresult ( false ) ? |", "  34>    enresult(false)?
    |");
   ("35 > return Ok ( ( ) ) |", "  35>    return Ok(())
    |");
   ("38 > enresult ( false ) ? |", "  38>    enresult(false)?
    |");
   ("39 > return Err ( ( ) ) |", "  39>    return Err(())
    |");
   ("42 > enresult ( false ) ? |", "  42>    enresult(false)?
    |");
   ("43 > return enresult ( ( ) ) |", "  43>    return enresult(())
    |");
   ("60 > enresult ( ( ) ) ? |", "  60>    enresult(())?
    |");
   ("62 > enresult ( false ) ? |", "  62>    enresult(false)?
    |");
   ("63 > return Right ( ) |", "  63>    return Right()
    |");
   ("66 > Right ( ) |", "  66>    Right()
    |");
   ("68 > enresult ( false ) ? |", "  68>    enresult(false)?
    |");
   ("72 > enresult ( false ) ? |", "  72>    enresult(false)?
    |");
   ("73 > return Ok ( ( ) ) |", "  73>    return Ok(())
    |");
   ("76 > enresult ( false ) ? |", "  76>    enresult(false)?
    |");
   ("77 > return Err ( ( ) ) |", "  77>    return Err(())
    |");
   ("80 > enresult ( false ) ? |", "  80>    enresult(false)?
    |");
   ("81 > return enresult ( ( ) ) |", "  81>    return enresult(())
    |");
   ("< hooq_root > / tests / special / inert_attr_setting / ignore_tail_expr_idents . rs", "<hooq_root>/tests/special/inert_attr_setting/ignore_tail_expr_idents.rs");
   ("[ { 0 } : { 1 } : { 2 } ] { 3 : ? } { 4 }", "[{0}:{1}:{2}] {3:?}
{4}
")].
Definition ends_special_inert_attr_setting_ignore_tail_expr_idents : list (N * N * (N * N * string)) :=
  [(3, 15, (3, 23, "")); (3, 37, (3, 39, "")); (3, 41, (5, 2, "")); (4, 7, (4, 12, "")); (7, 2, (7, 8, "")); (9, 2, (9, 32, "")); (9, 21, (9, 31, "")); (9, 22, (9, 30, """Result""")); (10, 2, (10, 35, "")); (10, 25, (10, 34, "")); (10, 26, (10, 33, """Right""")); (11, 2, (11, 41, "")); (11, 32, (11, 40, "")); (11, 33, (11, 39, """Left""")); (12, 8, (12, 10, "")); (12, 21, (12, 23, "")); (12, 25, (12, 27, "")); (12, 29, (48, 2, "")); (13, 6, (13, 29, "")); (13, 12, (13, 28, "")); (14, 29, (14, 31, "")); (14, 33, (14, 35, "")); (14, 40, (14, 44, "")); (14, 41, (14, 43, "")); (15, 6, (15, 29, "")); (15, 12, (15, 28, "")); (16, 28, (16, 30, "")); (16, 32, (16, 34, "")); (16, 40, (16, 44, "")); (16, 41, (16, 43, "")); (19, 13, (19, 17, "")); (19, 14, (19, 16, "")); (22, 16, (22, 23, "")); (22, 25, (24, 6, "")); (23, 21, (23, 23, "")); (26, 21, (26, 23, "")); (29, 16, (29, 23, "")); (29, 25, (31, 6, "")); (30, 20, (30, 22, "")); (34, 16, (34, 23, "")); (34, 25, (36, 6, "")); (35, 18, (35, 22, "")); (35, 19, (35, 21, "")); (38, 16, (38, 23, "")); (38, 25, (40, 6, "")); (39, 19, (39, 23, "")); (39, 20, (39, 22, "")); (42, 16, (42, 23, "")); (42, 25, (44, 6, "")); (43, 24, (43, 28, "")); (43, 25, (43, 27, "")); (47, 9, (47, 11, "")); (51, 2, (51, 8, "")); (52, 2, (52, 32, "")); (52, 21, (52, 31, "")); (52, 22, (52, 30, """Result""")); (53, 2, (53, 44, "")); (53, 25, (53, 43, "")); (53, 26, (53, 33, """Right""")); (53, 35, (53, 42, """!Left""")); (54, 9, (54, 11, "")); (54, 22, (54, 24, "")); (54, 26, (54, 28, "")); (54, 30, (85, 2, "")); (55, 6, (55, 29, "")); (55, 12, (55, 28, "")); (56, 29, (56, 31, "")); (56, 33, (56, 35, "")); (56, 40, (56, 44, "")); (56, 41, (56, 43, "")); (57, 6, (57, 29, "")); (57, 12, (57, 28, "")); (58, 28, (58, 30, "")); (58, 32, (58, 34, "")); (58, 40, (58, 44, "")); (58, 41, (58, 43, "")); (60, 13, (60, 17, "")); (60, 14, (60, 16, "")); (62, 16, (62, 23, "")); (62, 25, (64, 6, "")); (63, 21, (63, 23, "")); (66, 21, (66, 23, "")); (68, 16, (68, 23, "")); (68, 25, (70, 6, "")); (69, 20, (69, 22, "")); (72, 16, (72, 23, "")); (72, 25, (74, 6, "")); (73, 18, (73, 22, "")); (73, 19, (73, 21, "")); (76, 16, (76, 23, "")); (76, 25, (78, 6, "")); (77, 19, (77, 23, "")); (77, 20, (77, 22, "")); (80, 16, (80, 23, "")); (80, 25, (82, 6, "")); (81, 24, (81, 28, "")); (81, 25, (81, 27, "")); (84, 9, (84, 11, "")); (87, 2, (87, 8, "")); (88, 8, (88, 10, "")); (88, 11, (91, 2, "")); (89, 9, (89, 11, "")); (89, 22, (89, 24, "")); (90, 10, (90, 12, "")); (90, 23, (90, 25, ""))].
Definition su_special_inert_attr_setting_ignore_tail_expr_idents : setup := mk_setup (mk_features false false true false false "hooq") doc_special_inert_attr_setting_ignore_tail_expr_idents texts_special_inert_attr_setting_ignore_tail_expr_idents strs_special_inert_attr_setting_ignore_tail_expr_idents [] ends_special_inert_attr_setting_ignore_tail_expr_idents "ignore_tail_expr_idents".
Definition it_special_inert_attr_setting_ignore_tail_expr_idents_0 : item := let S := at_ "<hooq_root>/tests/special/inert_attr_setting/ignore_tail_expr_idents.rs" in
  (IFn [mk_attr false (S 9 1) (MList (mk_path false [mk_seg "hooq" [] (S 9 3); mk_seg "result_types" [] (S 9 9)]) Parenth [L S (LStr "Result") 9 22] (S 9 21)); mk_attr false (S 10 1) (MList (mk_path false [mk_seg "hooq" [] (S 10 3); mk_seg "tail_expr_idents" [] (S 10 9)]) Parenth [L S (LStr "Right") 10 26] (S 10 25)); mk_attr false (S 11 1) (MList (mk_path false [mk_seg "hooq" [] (S 11 3); mk_seg "ignore_tail_expr_idents" [] (S 11 9)]) Parenth [L S (LStr "Left") 11 33] (S 11 32))] [] (mk_sig "func" (RetPath (mk_path false [mk_seg "Result" [O S "<" 12 20; G S Parenth [] 12 21; O S "," 12 23; G S Parenth [] 12 25; O S ">" 12 27] (S 12 14)])) [I S "fn" 12 1; I S "func" 12 4; G S Parenth [] 12 8; O S "-" 12 11; O S ">" 12 12; I S "Result" 12 14; O S "<" 12 20; G S Parenth [] 12 21; O S "," 12 23; G S Parenth [] 12 25; O S ">" 12 27]) (S 12 29) [(SLocalInit [mk_attr false (S 13 5) (MList (mk_path false [mk_seg "allow" [] (S 13 7)]) Parenth [I S "non_snake_case" 13 13] (S 13 12))] [I S "let" 14 5; I S "Right" 14 9; O S "=" 14 15] (EClosure [] [O S "|" 14 17; O S "|" 14 18] RetNone (ECall [] (EPath [] (mk_path false [mk_seg "Result" [O S ":" 14 26; O S ":" 14 27; O S "<" 14 28; G S Parenth [] 14 29; O S "," 14 31; G S Parenth [] 14 33; O S ">" 14 35] (S 14 20); mk_seg "Ok" [] (S 14 38)])) (S 14 40) [(ETuple [] (S 14 41) [] [])] [])) [] None [O S ";" 14 44]); (SLocalInit [mk_attr false (S 15 5) (MList (mk_path false [mk_seg "allow" [] (S 15 7)]) Parenth [I S "non_snake_case" 15 13] (S 15 12))] [I S "let" 16 5; I S "Left" 16 9; O S "=" 16 14] (EClosure [] [O S "|" 16 16; O S "|" 16 17] RetNone (ECall [] (EPath [] (mk_path false [mk_seg "Result" [O S ":" 16 25; O S ":" 16 26; O S "<" 16 27; G S Parenth [] 16 28; O S "," 16 30; G S Parenth [] 16 32; O S ">" 16 34] (S 16 19); mk_seg "Err" [] (S 16 37)])) (S 16 40) [(ETuple [] (S 16 41) [] [])] [])) [] None [O S ";" 16 44]); (SExpr (ETry [] (ECall [] (EPath [] (mk_path false [mk_seg "enresult" [] (S 19 5)])) (S 19 13) [(ETuple [] (S 19 14) [] [])] []) (S 19 17)) (Some (S 19 18))); (SExpr (EIf [] [I S "if" 22 5] (ETry [] (ECall [] (EPath [] (mk_path false [mk_seg "enresult" [] (S 22 8)])) (S 22 16) [(EPath [] (mk_path false [mk_seg "false" [] (S 22 17)]))] []) (S 22 23)) (S 22 25) [(SExpr (EReturn [] (S 23 9) (Some (ECall [] (EPath [] (mk_path false [mk_seg "Right" [] (S 23 16)])) (S 23 21) [] []))) (Some (S 23 23)))] [] None) None); (SLocalInit [] [I S "let" 26 5; I S "_" 26 9; O S "=" 26 11] (EClosure [] [O S "|" 26 13; O S "|" 26 14] RetNone (ECall [] (EPath [] (mk_path false [mk_seg "Right" [] (S 26 16)])) (S 26 21) [] [])) [] None [O S ";" 26 23]); (SExpr (EIf [] [I S "if" 29 5] (ETry [] (ECall [] (EPath [] (mk_path false [mk_seg "enresult" [] (S 29 8)])) (S 29 16) [(EPath [] (mk_path false [mk_seg "false" [] (S 29 17)]))] []) (S 29 23)) (S 29 25) [(SExpr (EReturn [] (S 30 9) (Some (ECall [] (EPath [] (mk_path false [mk_seg "Left" [] (S 30 16)])) (S 30 20) [] []))) (Some (S 30 22)))] [] None) None); (SExpr (EIf [] [I S "if" 34 5] (ETry [] (ECall [] (EPath [] (mk_path false [mk_seg "enresult" [] (S 34 8)])) (S 34 16) [(EPath [] (mk_path false [mk_seg "false" [] (S 34 17)]))] []) (S 34 23)) (S 34 25) [(SExpr (EReturn [] (S 35 9) (Some (ECall [] (EPath [] (mk_path false [mk_seg "Ok" [] (S 35 16)])) (S 35 18) [(ETuple [] (S 35 19) [] [])] []))) (Some (S 35 22)))] [] None) None); (SExpr (EIf [] [I S "if" 38 5] (ETry [] (ECall [] (EPath [] (mk_path false [mk_seg "enresult" [] (S 38 8)])) (S 38 16) [(EPath [] (mk_path false [mk_seg "false" [] (S 38 17)]))] []) (S 38 23)) (S 38 25) [(SExpr (EReturn [] (S 39 9) (Some (ECall [] (EPath [] (mk_path false [mk_seg "Err" [] (S 39 16)])) (S 39 19) [(ETuple [] (S 39 20) [] [])] []))) (Some (S 39 23)))] [] None) None); (SExpr (EIf [] [I S "if" 42 5] (ETry [] (ECall [] (EPath [] (mk_path false [mk_seg "enresult" [] (S 42 8)])) (S 42 16) [(EPath [] (mk_path false [mk_seg "false" [] (S 42 17)]))] []) (S 42 23)) (S 42 25) [(SExpr (EReturn [] (S 43 9) (Some (ECall [] (EPath [] (mk_path false [mk_seg "enresult" [] (S 43 16)])) (S 43 24) [(ETuple [] (S 43 25) [] [])] []))) (Some (S 43 28)))] [] None) None); (SExpr (ECall [] (EPath [] (mk_path false [mk_seg "Left" [] (S 47 5)])) (S 47 9) [] []) None)]).
Definition args_special_inert_attr_setting_ignore_tail_expr_idents_0 : list meta := let S := at_ "<hooq_root>/tests/special/inert_attr_setting/ignore_tail_expr_idents.rs" in [].
Definition rec_special_inert_attr_setting_ignore_tail_expr_idents_0 : list string :=
  ["fn func ( ) - > Result < ( ) , ( ) > { # [ allow ( non_snake_case ) ] let Right = | | Result : : < ( ) , ( ) > : : Ok ( ( ) ) ; # [ allow (";
   "non_snake_case ) ] let Left = | | Result : : < ( ) , ( ) > : : Err ( ( ) ) ; enresult ( ( ) ) . inspect_err ( | e | { let path =";
   """<hooq_root>/tests/special/inert_attr_setting/ignore_tail_expr_idents.rs"" ; let line = 19usize ; let col = 17usize ; let expr =";
   """\s\s19>\s\s\s\senresult(())?\n\s\s\s\s|"" ; { : : std : : io : : _eprint ( format_args ! ( ""[{0}:{1}:{2}]\s{3:?}\n{4}\n"" , path , line , col , e ,";
   "expr ) ) ; } ; } ) ? ; if enresult ( false ) . inspect_err ( | e | { let path =";
   """<hooq_root>/tests/special/inert_attr_setting/ignore_tail_expr_idents.rs"" ; let line = 22usize ; let col = 23usize ; let expr =";
   """\s\s22>\s\s\s\senresult(false)?\n\s\s\s\s|"" ; { : : std : : io : : _eprint ( format_args ! ( ""[{0}:{1}:{2}]\s{3:?}\n{4}\n"" , path , line , col , e ,";
   "expr ) ) ; } ; } ) ? { return Right ( ) . inspect_err ( | e | { let path = ""<hooq_root>/tests/special/inert_attr_setting/ignore_tail_expr_idents.rs"" ;";
   "let line = 23usize ; let col = 9usize ; let expr = ""\s\s23>\s\s\s\sreturn\sRight()\n\s\s\s\s|"" ; { : : std : : io : : _eprint ( format_args ! (";
   """[{0}:{1}:{2}]\s{3:?}\n{4}\n"" , path , line , col , e , expr ) ) ; } ; } ) ; } let _ = | | Right ( ) . inspect_err ( | e | { let path =";
   """<hooq_root>/tests/special/inert_attr_setting/ignore_tail_expr_idents.rs"" ; let line = 26usize ; let col = 16usize ; let expr =";
   """\s\s26>\s\s\s\sRight()\n\s\s\s\s|"" ; { : : std : : io : : _eprint ( format_args ! ( ""[{0}:{1}:{2}]\s{3:?}\n{4}\n"" , path , line , col , e , expr ) )";
   "; } ; } ) ; if enresult ( false ) . inspect_err ( | e | { let path = ""<hooq_root>/tests/special/inert_attr_setting/ignore_tail_expr_idents.rs"" ; let";
   "line = 29usize ; let col = 23usize ; let expr = ""\s\s29>\s\s\s\senresult(false)?\n\s\s\s\s|"" ; { : : std : : io : : _eprint ( format_args ! (";
   """[{0}:{1}:{2}]\s{3:?}\n{4}\n"" , path , line , col , e , expr ) ) ; } ; } ) ? { return Left ( ) ; } if enresult ( false ) . inspect_err ( | e | { let";
   "path = ""<hooq_root>/tests/special/inert_attr_setting/ignore_tail_expr_idents.rs"" ; let line = 34usize ; let col = 23usize ; let expr =";
   """\s\s34>\s\s\s\senresult(false)?\n\s\s\s\s|"" ; { : : std : : io : : _eprint ( format_args ! ( ""[{0}:{1}:{2}]\s{3:?}\n{4}\n"" , path , line , col , e ,";
   "expr ) ) ; } ; } ) ? { return Ok ( ( ) ) . inspect_err ( | e | { let path = ""<hooq_root>/tests/special/inert_attr_setting/ignore_tail_expr_idents.rs""";
   "; let line = 35usize ; let col = 9usize ; let expr = ""\s\s35>\s\s\s\sreturn\sOk(())\n\s\s\s\s|"" ; { : : std : : io : : _eprint ( format_args ! (";
   """[{0}:{1}:{2}]\s{3:?}\n{4}\n"" , path , line , col , e , expr ) ) ; } ; } ) ; } if enresult ( false ) . inspect_err ( | e | { let path =";
   """<hooq_root>/tests/special/inert_attr_setting/ignore_tail_expr_idents.rs"" ; let line = 38usize ; let col = 23usize ; let expr =";
   """\s\s38>\s\s\s\senresult(false)?\n\s\s\s\s|"" ; { : : std : : io : : _eprint ( format_args ! ( ""[{0}:{1}:{2}]\s{3:?}\n{4}\n"" , path , line , col , e ,";
   "expr ) ) ; } ; } ) ? { return Err ( ( ) ) . inspect_err ( | e | { let path = ""<hooq_root>/tests/special/inert_attr_setting/ignore_tail_expr_idents.rs""";
   "; let line = 39usize ; let col = 9usize ; let expr = ""\s\s39>\s\s\s\sreturn\sErr(())\n\s\s\s\s|"" ; { : : std : : io : : _eprint ( format_args ! (";
   """[{0}:{1}:{2}]\s{3:?}\n{4}\n"" , path , line , col , e , expr ) ) ; } ; } ) ; } if enresult ( false ) . inspect_err ( | e | { let path =";
   """<hooq_root>/tests/special/inert_attr_setting/ignore_tail_expr_idents.rs"" ; let line = 42usize ; let col = 23usize ; let expr =";
   """\s\s42>\s\s\s\senresult(false)?\n\s\s\s\s|"" ; { : : std : : io : : _eprint ( format_args ! ( ""[{0}:{1}:{2}]\s{3:?}\n{4}\n"" , path , line , col , e ,";
   "expr ) ) ; } ; } ) ? { return enresult ( ( ) ) . inspect_err ( | e | { let path =";
   """<hooq_root>/tests/special/inert_attr_setting/ignore_tail_expr_idents.rs"" ; let line = 43usize ; let col = 9usize ; let expr =";
   """\s\s43>\s\s\s\sreturn\senresult(())\n\s\s\s\s|"" ; { : : std : : io : : _eprint ( format_args ! ( ""[{0}:{1}:{2}]\s{3:?}\n{4}\n"" , path , line , col ,";
   "e , expr ) ) ; } ; } ) ; } Left ( ) }"].
Definition it_special_inert_attr_setting_ignore_tail_expr_idents_1 : item := let S := at_ "<hooq_root>/tests/special/inert_attr_setting/ignore_tail_expr_idents.rs" in
  (IFn [mk_attr false (S 52 1) (MList (mk_path false [mk_seg "hooq" [] (S 52 3); mk_seg "result_types" [] (S 52 9)]) Parenth [L S (LStr "Result") 52 22] (S 52 21)); mk_attr false (S 53 1) (MList (mk_path false [mk_seg "hooq" [] (S 53 3); mk_seg "tail_expr_idents" [] (S 53 9)]) Parenth [L S (LStr "Right") 53 26; O S "," 53 33; L S (LStr "!Left") 53 35] (S 53 25))] [] (mk_sig "func2" (RetPath (mk_path false [mk_seg "Result" [O S "<" 54 21; G S Parenth [] 54 22; O S "," 54 24; G S Parenth [] 54 26; O S ">" 54 28] (S 54 15)])) [I S "fn" 54 1; I S "func2" 54 4; G S Parenth [] 54 9; O S "-" 54 12; O S ">" 54 13; I S "Result" 54 15; O S "<" 54 21; G S Parenth [] 54 22; O S "," 54 24; G S Parenth [] 54 26; O S ">" 54 28]) (S 54 30) [(SLocalInit [mk_attr false (S 55 5) (MList (mk_path false [mk_seg "allow" [] (S 55 7)]) Parenth [I S "non_snake_case" 55 13] (S 55 12))] [I S "let" 56 5; I S "Right" 56 9; O S "=" 56 15] (EClosure [] [O S "|" 56 17; O S "|" 56 18] RetNone (ECall [] (EPath [] (mk_path false [mk_seg "Result" [O S ":" 56 26; O S ":" 56 27; O S "<" 56 28; G S Parenth [] 56 29; O S "," 56 31; G S Parenth [] 56 33; O S ">" 56 35] (S 56 20); mk_seg "Ok" [] (S 56 38)])) (S 56 40) [(ETuple [] (S 56 41) [] [])] [])) [] None [O S ";" 56 44]); (SLocalInit [mk_attr false (S 57 5) (MList (mk_path false [mk_seg "allow" [] (S 57 7)]) Parenth [I S "non_snake_case" 57 13] (S 57 12))] [I S "let" 58 5; I S "Left" 58 9; O S "=" 58 14] (EClosure [] [O S "|" 58 16; O S "|" 58 17] RetNone (ECall [] (EPath [] (mk_path false [mk_seg "Result" [O S ":" 58 25; O S ":" 58 26; O S "<" 58 27; G S Parenth [] 58 28; O S "," 58 30; G S Parenth [] 58 32; O S ">" 58 34] (S 58 19); mk_seg "Err" [] (S 58 37)])) (S 58 40) [(ETuple [] (S 58 41) [] [])] [])) [] None [O S ";" 58 44]); (SExpr (ETry [] (ECall [] (EPath [] (mk_path false [mk_seg "enresult" [] (S 60 5)])) (S 60 13) [(ETuple [] (S 60 14) [] [])] []) (S 60 17)) (Some (S 60 18))); (SExpr (EIf [] [I S "if" 62 5] (ETry [] (ECall [] (EPath [] (mk_path false [mk_seg "enresult" [] (S 62 8)])) (S 62 16) [(EPath [] (mk_path false [mk_seg "false" [] (S 62 17)]))] []) (S 62 23)) (S 62 25) [(SExpr (EReturn [] (S 63 9) (Some (ECall [] (EPath [] (mk_path false [mk_seg "Right" [] (S 63 16)])) (S 63 21) [] []))) (Some (S 63 23)))] [] None) None); (SLocalInit [] [I S "let" 66 5; I S "_" 66 9; O S "=" 66 11] (EClosure [] [O S "|" 66 13; O S "|" 66 14] RetNone (ECall [] (EPath [] (mk_path false [mk_seg "Right" [] (S 66 16)])) (S 66 21) [] [])) [] None [O S ";" 66 23]); (SExpr (EIf [] [I S "if" 68 5] (ETry [] (ECall [] (EPath [] (mk_path false [mk_seg "enresult" [] (S 68 8)])) (S 68 16) [(EPath [] (mk_path false [mk_seg "false" [] (S 68 17)]))] []) (S 68 23)) (S 68 25) [(SExpr (EReturn [] (S 69 9) (Some (ECall [] (EPath [] (mk_path false [mk_seg "Left" [] (S 69 16)])) (S 69 20) [] []))) (Some (S 69 22)))] [] None) None); (SExpr (EIf [] [I S "if" 72 5] (ETry [] (ECall [] (EPath [] (mk_path false [mk_seg "enresult" [] (S 72 8)])) (S 72 16) [(EPath [] (mk_path false [mk_seg "false" [] (S 72 17)]))] []) (S 72 23)) (S 72 25) [(SExpr (EReturn [] (S 73 9) (Some (ECall [] (EPath [] (mk_path false [mk_seg "Ok" [] (S 73 16)])) (S 73 18) [(ETuple [] (S 73 19) [] [])] []))) (Some (S 73 22)))] [] None) None); (SExpr (EIf [] [I S "if" 76 5] (ETry [] (ECall [] (EPath [] (mk_path false [mk_seg "enresult" [] (S 76 8)])) (S 76 16) [(EPath [] (mk_path false [mk_seg "false" [] (S 76 17)]))] []) (S 76 23)) (S 76 25) [(SExpr (EReturn [] (S 77 9) (Some (ECall [] (EPath [] (mk_path false [mk_seg "Err" [] (S 77 16)])) (S 77 19) [(ETuple [] (S 77 20) [] [])] []))) (Some (S 77 23)))] [] None) None); (SExpr (EIf [] [I S "if" 80 5] (ETry [] (ECall [] (EPath [] (mk_path false [mk_seg "enresult" [] (S 80 8)])) (S 80 16) [(EPath [] (mk_path false [mk_seg "false" [] (S 80 17)]))] []) (S 80 23)) (S 80 25) [(SExpr (EReturn [] (S 81 9) (Some (ECall [] (EPath [] (mk_path false [mk_seg "enresult" [] (S 81 16)])) (S 81 24) [(ETuple [] (S 81 25) [] [])] []))) (Some (S 81 28)))] [] None) None); (SExpr (ECall [] (EPath [] (mk_path false [mk_seg "Left" [] (S 84 5)])) (S 84 9) [] []) None)]).
Definition args_special_inert_attr_setting_ignore_tail_expr_idents_1 : list meta := let S := at_ "<hooq_root>/tests/special/inert_attr_setting/ignore_tail_expr_idents.rs" in [].
Definition rec_special_inert_attr_setting_ignore_tail_expr_idents_1 : list string :=
  ["fn func2 ( ) - > Result < ( ) , ( ) > { # [ allow ( non_snake_case ) ] let Right = | | Result : : < ( ) , ( ) > : : Ok ( ( ) ) ; # [ allow (";
   "non_snake_case ) ] let Left = | | Result : : < ( ) , ( ) > : : Err ( ( ) ) ; enresult ( ( ) ) . inspect_err ( | e | { let path =";
   """<hooq_root>/tests/special/inert_attr_setting/ignore_tail_expr_idents.rs"" ; let line = 60usize ; let col = 17usize ; let expr =";
   """\s\s60>\s\s\s\senresult(())?\n\s\s\s\s|"" ; { : : std : : io : : _eprint ( format_args ! ( ""[{0}:{1}:{2}]\s{3:?}\n{4}\n"" , path , line , col , e ,";
   "expr ) ) ; } ; } ) ? ; if enresult ( false ) . inspect_err ( | e | { let path =";
   """<hooq_root>/tests/special/inert_attr_setting/ignore_tail_expr_idents.rs"" ; let line = 62usize ; let col = 23usize ; let expr =";
   """\s\s62>\s\s\s\senresult(false)?\n\s\s\s\s|"" ; { : : std : : io : : _eprint ( format_args ! ( ""[{0}:{1}:{2}]\s{3:?}\n{4}\n"" , path , line , col , e ,";
   "expr ) ) ; } ; } ) ? { return Right ( ) . inspect_err ( | e | { let path = ""<hooq_root>/tests/special/inert_attr_setting/ignore_tail_expr_idents.rs"" ;";
   "let line = 63usize ; let col = 9usize ; let expr = ""\s\s63>\s\s\s\sreturn\sRight()\n\s\s\s\s|"" ; { : : std : : io : : _eprint ( format_args ! (";
   """[{0}:{1}:{2}]\s{3:?}\n{4}\n"" , path , line , col , e , expr ) ) ; } ; } ) ; } let _ = | | Right ( ) . inspect_err ( | e | { let path =";
   """<hooq_root>/tests/special/inert_attr_setting/ignore_tail_expr_idents.rs"" ; let line = 66usize ; let col = 16usize ; let expr =";
   """\s\s66>\s\s\s\sRight()\n\s\s\s\s|"" ; { : : std : : io : : _eprint ( format_args ! ( ""[{0}:{1}:{2}]\s{3:?}\n{4}\n"" , path , line , col , e , expr ) )";
   "; } ; } ) ; if enresult ( false ) . inspect_err ( | e | { let path = ""<hooq_root>/tests/special/inert_attr_setting/ignore_tail_expr_idents.rs"" ; let";
   "line = 68usize ; let col = 23usize ; let expr = ""\s\s68>\s\s\s\senresult(false)?\n\s\s\s\s|"" ; { : : std : : io : : _eprint ( format_args ! (";
   """[{0}:{1}:{2}]\s{3:?}\n{4}\n"" , path , line , col , e , expr ) ) ; } ; } ) ? { return Left ( ) ; } if enresult ( false ) . inspect_err ( | e | { let";
   "path = ""<hooq_root>/tests/special/inert_attr_setting/ignore_tail_expr_idents.rs"" ; let line = 72usize ; let col = 23usize ; let expr =";
   """\s\s72>\s\s\s\senresult(false)?\n\s\s\s\s|"" ; { : : std : : io : : _eprint ( format_args ! ( ""[{0}:{1}:{2}]\s{3:?}\n{4}\n"" , path , line , col , e ,";
   "expr ) ) ; } ; } ) ? { return Ok ( ( ) ) . inspect_err ( | e | { let path = ""<hooq_root>/tests/special/inert_attr_setting/ignore_tail_expr_idents.rs""";
   "; let line = 73usize ; let col = 9usize ; let expr = ""\s\s73>\s\s\s\sreturn\sOk(())\n\s\s\s\s|"" ; { : : std : : io : : _eprint ( format_args ! (";
   """[{0}:{1}:{2}]\s{3:?}\n{4}\n"" , path , line , col , e , expr ) ) ; } ; } ) ; } if enresult ( false ) . inspect_err ( | e | { let path =";
   """<hooq_root>/tests/special/inert_attr_setting/ignore_tail_expr_idents.rs"" ; let line = 76usize ; let col = 23usize ; let expr =";
   """\s\s76>\s\s\s\senresult(false)?\n\s\s\s\s|"" ; { : : std : : io : : _eprint ( format_args ! ( ""[{0}:{1}:{2}]\s{3:?}\n{4}\n"" , path , line , col , e ,";
   "expr ) ) ; } ; } ) ? { return Err ( ( ) ) . inspect_err ( | e | { let path = ""<hooq_root>/tests/special/inert_attr_setting/ignore_tail_expr_idents.rs""";
   "; let line = 77usize ; let col = 9usize ; let expr = ""\s\s77>\s\s\s\sreturn\sErr(())\n\s\s\s\s|"" ; { : : std : : io : : _eprint ( format_args ! (";
   """[{0}:{1}:{2}]\s{3:?}\n{4}\n"" , path , line , col , e , expr ) ) ; } ; } ) ; } if enresult ( false ) . inspect_err ( | e | { let path =";
   """<hooq_root>/tests/special/inert_attr_setting/ignore_tail_expr_idents.rs"" ; let line = 80usize ; let col = 23usize ; let expr =";
   """\s\s80>\s\s\s\senresult(false)?\n\s\s\s\s|"" ; { : : std : : io : : _eprint ( format_args ! ( ""[{0}:{1}:{2}]\s{3:?}\n{4}\n"" , path , line , col , e ,";
   "expr ) ) ; } ; } ) ? { return enresult ( ( ) ) . inspect_err ( | e | { let path =";
   """<hooq_root>/tests/special/inert_attr_setting/ignore_tail_expr_idents.rs"" ; let line = 81usize ; let col = 9usize ; let expr =";
   """\s\s81>\s\s\s\sreturn\senresult(())\n\s\s\s\s|"" ; { : : std : : io : : _eprint ( format_args ! ( ""[{0}:{1}:{2}]\s{3:?}\n{4}\n"" , path , line , col ,";
   "e , expr ) ) ; } ; } ) ; } Left ( ) }"].
(** func *)
Example recorded_special_inert_attr_setting_ignore_tail_expr_idents_0 : expanded su_special_inert_attr_setting_ignore_tail_expr_idents args_special_inert_attr_setting_ignore_tail_expr_idents_0 it_special_inert_attr_setting_ignore_tail_expr_idents_0 = words rec_special_inert_attr_setting_ignore_tail_expr_idents_0.
Proof. vm_compute. reflexivity. Qed.
(** func2 *)
Example recorded_special_inert_attr_setting_ignore_tail_expr_idents_1 : expanded su_special_inert_attr_setting_ignore_tail_expr_idents args_special_inert_attr_setting_ignore_tail_expr_idents_1 it_special_inert_attr_setting_ignore_tail_expr_idents_1 = words rec_special_inert_attr_setting_ignore_tail_expr_idents_1.
Proof. vm_compute. reflexivity. Qed.
(** ** hooq-macros/tests/special/inert_attr_setting/option.rs *)
Definition doc_special_inert_attr_setting_option : list (string * ftable) := [].
Definition texts_special_inert_attr_setting_option : list (string * list tt) := let S := at_ "" in [].
Definition strs_special_inert_attr_setting_option : list (string * string) :=
  [("< hooq_root > / tests / special / inert_attr_setting / option . rs", "<hooq_root>/tests/special/inert_attr_setting/option.rs");
   ("Some ( ( ) )", "Some(())");
   ("hoge ( ) . ok ( ) ?", "hoge().ok() ?");
   ("option . rs", "option.rs");
   ("return Some ( ( ) )", "return Some(())");
   ("{ 0 : ? }", "{0:?}
")].
Definition ends_special_inert_attr_setting_option : list (N * N * (N * N * string)) :=
  [(11, 2, (11, 8, "")); (12, 8, (12, 10, "")); (12, 21, (12, 23, "")); (12, 25, (12, 27, "")); (12, 29, (14, 2, "")); (13, 7, (13, 11, "")); (13, 8, (13, 10, "")); (16, 2, (16, 8, "")); (17, 2, (17, 32, "")); (17, 21, (17, 31, "")); (17, 22, (17, 30, """Option""")); (18, 2, (18, 42, "")); (18, 25, (18, 41, "")); (18, 26, (18, 32, """Some""")); (18, 34, (18, 40, """None""")); (19, 2, (21, 5, "")); (19, 15, (21, 4, "")); (19, 24, (21, 3, "")); (19, 29, (21, 2, "")); (20, 14, (20, 34, "")); (20, 15, (20, 21, """{:?}""")); (22, 15, (22, 43, "")); (22, 54, (22, 56, "")); (22, 58, (43, 2, "")); (23, 9, (23, 11, "")); (23, 14, (23, 16, "")); (25, 14, (27, 6, "")); (29, 16, (40, 6, "")); (31, 17, (33, 10, "")); (32, 24, (32, 28, "")); (32, 25, (32, 27, "")); (35, 21, (37, 10, "")); (42, 9, (42, 13, "")); (42, 10, (42, 12, "")); (45, 2, (45, 8, "")); (46, 2, (46, 32, "")); (46, 21, (46, 31, "")); (46, 22, (46, 30, """Option""")); (47, 2, (47, 34, "")); (47, 25, (47, 33, "")); (47, 26, (47, 32, """Some""")); (48, 2, (50, 5, "")); (48, 15, (50, 4, "")); (48, 24, (50, 3, "")); (48, 29, (50, 2, "")); (49, 14, (49, 34, "")); (49, 15, (49, 21, """{:?}""")); (51, 15, (51, 43, "")); (51, 54, (51, 56, "")); (51, 58, (73, 2, "")); (52, 9, (52, 11, "")); (52, 14, (52, 16, "")); (54, 14, (57, 6, "")); (59, 16, (70, 6, "")); (61, 17, (63, 10, "")); (62, 24, (62, 28, "")); (62, 25, (62, 27, "")); (65, 21, (67, 10, "")); (75, 2, (75, 8, "")); (76, 8, (76, 10, "")); (76, 11, (79, 2, "")); (77, 16, (77, 29, "")); (77, 36, (77, 38, "")); (78, 16, (78, 29, "")); (78, 47, (78, 49, ""))].
Definition su_special_inert_attr_setting_option : setup := mk_setup (mk_features false false true false false "hooq") doc_special_inert_attr_setting_option texts_special_inert_attr_setting_option strs_special_inert_attr_setting_option [] ends_special_inert_attr_setting_option "option".
Definition it_special_inert_attr_setting_option_0 : item := let S := at_ "<hooq_root>/tests/special/inert_attr_setting/option.rs" in
  (IFn [] [] (mk_sig "hoge" (RetPath (mk_path false [mk_seg "Result" [O S "<" 12 20; G S Parenth [] 12 21; O S "," 12 23; G S Parenth [] 12 25; O S ">" 12 27] (S 12 14)])) [I S "fn" 12 1; I S "hoge" 12 4; G S Parenth [] 12 8; O S "-" 12 11; O S ">" 12 12; I S "Result" 12 14; O S "<" 12 20; G S Parenth [] 12 21; O S "," 12 23; G S Parenth [] 12 25; O S ">" 12 27]) (S 12 29) [(SExpr (ECall [] (EPath [] (mk_path false [mk_seg "Ok" [] (S 13 5)])) (S 13 7) [(ETuple [] (S 13 8) [] [])] []) None)]).
Definition args_special_inert_attr_setting_option_0 : list meta := let S := at_ "<hooq_root>/tests/special/inert_attr_setting/option.rs" in [].
Definition rec_special_inert_attr_setting_option_0 : list string :=
  ["fn hoge ( ) - > Result < ( ) , ( ) > { Ok ( ( ) ) }"].
Definition it_special_inert_attr_setting_option_1 : item := let S := at_ "<hooq_root>/tests/special/inert_attr_setting/option.rs" in
  (IFn [mk_attr false (S 17 1) (MList (mk_path false [mk_seg "hooq" [] (S 17 3); mk_seg "result_types" [] (S 17 9)]) Parenth [L S (LStr "Option") 17 22] (S 17 21)); mk_attr false (S 18 1) (MList (mk_path false [mk_seg "hooq" [] (S 18 3); mk_seg "tail_expr_idents" [] (S 18 9)]) Parenth [L S (LStr "Some") 18 26; O S "," 18 32; L S (LStr "None") 18 34] (S 18 25)); mk_attr false (S 19 1) (MList (mk_path false [mk_seg "hooq" [] (S 19 3); mk_seg "method" [] (S 19 9)]) Parenth [O S "." 19 16; I S "inspect" 19 17; G S Parenth [O S "|" 19 25; I S "_" 19 26; O S "|" 19 27; G S Brace [I S "eprintln" 20 5; O S "!" 20 13; G S Parenth [L S (LStr "{:?}") 20 15; O S "," 20 21; O S "$" 20 23; I S "hooq_meta" 20 24] 20 14; O S ";" 20 34] 19 29] 19 24] (S 19 15))] [] (mk_sig "option_fn_1" (RetPath (mk_path false [mk_seg "Option" [O S "<" 22 53; G S Parenth [] 22 54; O S ">" 22 56] (S 22 47)])) [I S "fn" 22 1; I S "option_fn_1" 22 4; G S Parenth [I S "flag" 22 16; O S ":" 22 20; I S "bool" 22 22; O S "," 22 26; I S "flagflag" 22 28; O S ":" 22 36; I S "bool" 22 38] 22 15; O S "-" 22 44; O S ">" 22 45; I S "Option" 22 47; O S "<" 22 53; G S Parenth [] 22 54; O S ">" 22 56]) (S 22 58) [(SExpr (ETry [] (EMethodCall [] (ECall [] (EPath [] (mk_path false [mk_seg "hoge" [] (S 23 5)])) (S 23 9) [] []) [O S "." 23 11; I S "ok" 23 12] (S 23 14) [] []) (S 23 16)) (Some (S 23 17))); (SExpr (EIf [] [I S "if" 25 5] (EUnary [] [O S "!" 25 8] (EPath [] (mk_path false [mk_seg "flag" [] (S 25 9)]))) (S 25 14) [(SExpr (EReturn [] (S 26 9) (Some (EPath [] (mk_path false [mk_seg "None" [] (S 26 16)])))) (Some (S 26 20)))] [] None) None); (SLocalInit [] [I S "let" 29 5; I S "_" 29 9; O S "=" 29 11] (EClosure [] [O S "|" 29 13; O S "|" 29 14] RetNone (EBlock [] [] (S 29 16) [(SExpr (EIf [] [I S "if" 31 9] (EPath [] (mk_path false [mk_seg "flag" [] (S 31 12)])) (S 31 17) [(SExpr (EReturn [] (S 32 13) (Some (ECall [] (EPath [] (mk_path false [mk_seg "Some" [] (S 32 20)])) (S 32 24) [(ETuple [] (S 32 25) [] [])] []))) (Some (S 32 28)))] [] None) None); (SExpr (EIf [] [I S "if" 35 9] (EPath [] (mk_path false [mk_seg "flagflag" [] (S 35 12)])) (S 35 21) [(SExpr (EReturn [] (S 36 13) (Some (EPath [] (mk_path false [mk_seg "None" [] (S 36 20)])))) (Some (S 36 24)))] [] None) None); (SExpr (EPath [] (mk_path false [mk_seg "None" [] (S 39 9)])) None)])) [] None [O S ";" 40 6]); (SExpr (ECall [] (EPath [] (mk_path false [mk_seg "Some" [] (S 42 5)])) (S 42 9) [(ETuple [] (S 42 10) [] [])] []) None)]).
Definition args_special_inert_attr_setting_option_1 : list meta := let S := at_ "<hooq_root>/tests/special/inert_attr_setting/option.rs" in [].
Definition rec_special_inert_attr_setting_option_1 : list string :=
  ["fn option_fn_1 ( flag : bool , flagflag : bool ) - > Option < ( ) > { hoge ( ) . ok ( ) . inspect ( | _ | { { : : std : : io : : _eprint ( format_args";
   "! ( ""{0:?}\n"" , : : hooq : : HooqMeta { line : 23usize , column : 16usize , path : ""<hooq_root>/tests/special/inert_attr_setting/option.rs"" , file :";
   """option.rs"" , source_str : ""hoge().ok()\s?"" , count : ""1st\s?"" , bindings : : : std : : collections : : HashMap : : from ( [ ] ) } ) ) ; } ; } ) ? ;";
   "if ! flag { return None . inspect ( | _ | { { : : std : : io : : _eprint ( format_args ! ( ""{0:?}\n"" , : : hooq : : HooqMeta { line : 26usize , column";
   ": 9usize , path : ""<hooq_root>/tests/special/inert_attr_setting/option.rs"" , file : ""option.rs"" , source_str : ""return\sNone"" , count : ""1st\sreturn""";
   ", bindings : : : std : : collections : : HashMap : : from ( [ ] ) } ) ) ; } ; } ) ; } let _ = | | if flag { return Some ( ( ) ) . inspect ( | _ | { {";
   ": : std : : io : : _eprint ( format_args ! ( ""{0:?}\n"" , : : hooq : : HooqMeta { line : 32usize , column : 13usize , path :";
   """<hooq_root>/tests/special/inert_attr_setting/option.rs"" , file : ""option.rs"" , source_str : ""return\sSome(())"" , count : ""2nd\sreturn"" , bindings : :";
   ": std : : collections : : HashMap : : from ( [ ] ) } ) ) ; } ; } ) ; } if flagflag { return None ; } None ; Some ( ( ) ) . inspect ( | _ | { { : : std";
   ": : io : : _eprint ( format_args ! ( ""{0:?}\n"" , : : hooq : : HooqMeta { line : 42usize , column : 5usize , path :";
   """<hooq_root>/tests/special/inert_attr_setting/option.rs"" , file : ""option.rs"" , source_str : ""Some(())"" , count : ""1st\stail\sexpr"" , bindings : : :";
   "std : : collections : : HashMap : : from ( [ ] ) } ) ) ; } ; } ) }"].
Definition it_special_inert_attr_setting_option_2 : item := let S := at_ "<hooq_root>/tests/special/inert_attr_setting/option.rs" in
  (IFn [mk_attr false (S 46 1) (MList (mk_path false [mk_seg "hooq" [] (S 46 3); mk_seg "result_types" [] (S 46 9)]) Parenth [L S (LStr "Option") 46 22] (S 46 21)); mk_attr false (S 47 1) (MList (mk_path false [mk_seg "hooq" [] (S 47 3); mk_seg "tail_expr_idents" [] (S 47 9)]) Parenth [L S (LStr "Some") 47 26] (S 47 25)); mk_attr false (S 48 1) (MList (mk_path false [mk_seg "hooq" [] (S 48 3); mk_seg "method" [] (S 48 9)]) Parenth [O S "." 48 16; I S "inspect" 48 17; G S Parenth [O S "|" 48 25; I S "_" 48 26; O S "|" 48 27; G S Brace [I S "eprintln" 49 5; O S "!" 49 13; G S Parenth [L S (LStr "{:?}") 49 15; O S "," 49 21; O S "$" 49 23; I S "hooq_meta" 49 24] 49 14; O S ";" 49 34] 48 29] 48 24] (S 48 15))] [] (mk_sig "option_fn_2" (RetPath (mk_path false [mk_seg "Option" [O S "<" 51 53; G S Parenth [] 51 54; O S ">" 51 56] (S 51 47)])) [I S "fn" 51 1; I S "option_fn_2" 51 4; G S Parenth [I S "flag" 51 16; O S ":" 51 20; I S "bool" 51 22; O S "," 51 26; I S "flagflag" 51 28; O S ":" 51 36; I S "bool" 51 38] 51 15; O S "-" 51 44; O S ">" 51 45; I S "Option" 51 47; O S "<" 51 53; G S Parenth [] 51 54; O S ">" 51 56]) (S 51 58) [(SExpr (ETry [] (EMethodCall [] (ECall [] (EPath [] (mk_path false [mk_seg "hoge" [] (S 52 5)])) (S 52 9) [] []) [O S "." 52 11; I S "ok" 52 12] (S 52 14) [] []) (S 52 16)) (Some (S 52 17))); (SExpr (EIf [] [I S "if" 54 5] (EUnary [] [O S "!" 54 8] (EPath [] (mk_path false [mk_seg "flag" [] (S 54 9)]))) (S 54 14) [(SExpr (EReturn [] (S 56 9) (Some (EPath [] (mk_path false [mk_seg "None" [] (S 56 16)])))) (Some (S 56 20)))] [] None) None); (SLocalInit [] [I S "let" 59 5; I S "_" 59 9; O S "=" 59 11] (EClosure [] [O S "|" 59 13; O S "|" 59 14] RetNone (EBlock [] [] (S 59 16) [(SExpr (EIf [] [I S "if" 61 9] (EPath [] (mk_path false [mk_seg "flag" [] (S 61 12)])) (S 61 17) [(SExpr (EReturn [] (S 62 13) (Some (ECall [] (EPath [] (mk_path false [mk_seg "Some" [] (S 62 20)])) (S 62 24) [(ETuple [] (S 62 25) [] [])] []))) (Some (S 62 28)))] [] None) None); (SExpr (EIf [] [I S "if" 65 9] (EPath [] (mk_path false [mk_seg "flagflag" [] (S 65 12)])) (S 65 21) [(SExpr (EReturn [] (S 66 13) (Some (EPath [] (mk_path false [mk_seg "None" [] (S 66 20)])))) (Some (S 66 24)))] [] None) None); (SExpr (EPath [] (mk_path false [mk_seg "None" [] (S 69 9)])) None)])) [] None [O S ";" 70 6]); (SExpr (EPath [] (mk_path false [mk_seg "None" [] (S 72 5)])) None)]).
Definition args_special_inert_attr_setting_option_2 : list meta := let S := at_ "<hooq_root>/tests/special/inert_attr_setting/option.rs" in [].
Definition rec_special_inert_attr_setting_option_2 : list string :=
  ["fn option_fn_2 ( flag : bool , flagflag : bool ) - > Option < ( ) > { hoge ( ) . ok ( ) . inspect ( | _ | { { : : std : : io : : _eprint ( format_args";
   "! ( ""{0:?}\n"" , : : hooq : : HooqMeta { line : 52usize , column : 16usize , path : ""<hooq_root>/tests/special/inert_attr_setting/option.rs"" , file :";
   """option.rs"" , source_str : ""hoge().ok()\s?"" , count : ""1st\s?"" , bindings : : : std : : collections : : HashMap : : from ( [ ] ) } ) ) ; } ; } ) ? ;";
   "if ! flag { return None . inspect ( | _ | { { : : std : : io : : _eprint ( format_args ! ( ""{0:?}\n"" , : : hooq : : HooqMeta { line : 56usize , column";
   ": 9usize , path : ""<hooq_root>/tests/special/inert_attr_setting/option.rs"" , file : ""option.rs"" , source_str : ""return\sNone"" , count : ""1st\sreturn""";
   ", bindings : : : std : : collections : : HashMap : : from ( [ ] ) } ) ) ; } ; } ) ; } let _ = | | if flag { return Some ( ( ) ) . inspect ( | _ | { {";
   ": : std : : io : : _eprint ( format_args ! ( ""{0:?}\n"" , : : hooq : : HooqMeta { line : 62usize , column : 13usize , path :";
   """<hooq_root>/tests/special/inert_attr_setting/option.rs"" , file : ""option.rs"" , source_str : ""return\sSome(())"" , count : ""2nd\sreturn"" , bindings : :";
   ": std : : collections : : HashMap : : from ( [ ] ) } ) ) ; } ; } ) ; } if flagflag { return None ; } None ; None . inspect ( | _ | { { : : std : : io";
   ": : _eprint ( format_args ! ( ""{0:?}\n"" , : : hooq : : HooqMeta { line : 72usize , column : 5usize , path :";
   """<hooq_root>/tests/special/inert_attr_setting/option.rs"" , file : ""option.rs"" , source_str : ""None"" , count : ""1st\stail\sexpr"" , bindings : : : std :";
   ": collections : : HashMap : : from ( [ ] ) } ) ) ; } ; } ) }"].
(** hoge *)
Example recorded_special_inert_attr_setting_option_0 : expanded su_special_inert_attr_setting_option args_special_inert_attr_setting_option_0 it_special_inert_attr_setting_option_0 = words rec_special_inert_attr_setting_option_0.
Proof. vm_compute. reflexivity. Qed.
(** option_fn_1 *)
Example recorded_special_inert_attr_setting_option_1 : expanded su_special_inert_attr_setting_option args_special_inert_attr_setting_option_1 it_special_inert_attr_setting_option_1 = words rec_special_inert_attr_setting_option_1.
Proof. vm_compute. reflexivity. Qed.
(** option_fn_2 *)
Example recorded_special_inert_attr_setting_option_2 : expanded su_special_inert_attr_setting_option args_special_inert_attr_setting_option_2 it_special_inert_attr_setting_option_2 = words rec_special_inert_attr_setting_option_2.
Proof. vm_compute. reflexivity. Qed.
(** ** hooq-macros/tests/special/inert_attr_setting/result_types.rs *)
Definition doc_special_inert_attr_setting_result_types : list (string * ftable) := [].
Definition texts_special_inert_attr_setting_result_types : list (string * list tt) := let S := at_ "" in [].
Definition strs_special_inert_attr_setting_result_types : list (string * string) :=
  [("100 > enresult ( false ) ? |", " 100>    enresult(false)?
    |");
   ("12 > Ok ( val ) |", "  12>    Ok(val)
    |");
   ("16 > enresult ( false ) ? |", "  16>    enresult(false)?
    |");
   ("17 > return enresult ( ( ) ) |", "  17>    return enresult(())
    |");
   ("20 > enresult ( ( ) ) |", "  20>    enresult(())
    |");
   ("24 > enresult ( false ) ? |", "  24>    enresult(false)?
    |");
   ("25 > return enresult ( ( ) ) |", "  25>    return enresult(())
    |");
   ("28 > enresult ( ( ) ) |", "  28>    enresult(())
    |");
   ("32 > enresult ( false ) ? |", "  32>    enresult(false)?
    |");
   ("45 > enresult ( false ) ? |", "  45>    enresult(false)?
    |");
   ("49 > enresult ( false ) ? |", "  49>    enresult(false)?
    |");
   ("50 > return Ok ( ( ) ) |", "  50>    return Ok(())
    |");
   ("53 > Ok ( ( ) ) |", "  53>    Ok(())
    |");
   ("57 > enresult ( false ) ? |", "  57>    enresult(false)?
    |");
   ("61 > enresult ( false ) ? |", "  61>    enresult(false)?
    |");
   ("67 > Ok ( ( ) ) |", "  67>    Ok(())
    |");
   ("75 > enresult ( false ) ? |", "  75>    enresult(false)?
    |");
   ("76 > return enresult ( ( ) ) |", "  76>    return enresult(())
    |");
   ("79 > enresult ( false ) ? |", "  79>    enresult(false)?
    |");
   ("80 > return Err ( ( ) ) |", "  80>    return Err(())
    |");
   ("83 > enresult ( false ) ? |", "  83>    enresult(false)?
    |");
   ("84 > return Ok ( ( ) ) |", "  84>    return Ok(())
    |");
   ("87 > Ok ( ( ) ) |", "  87>    Ok(())
    |");
   ("92 > enresult ( false ) ? |", "  92>    enresult(false)?
    |");
   ("93 > return enresult ( ( ) ) |", "  93>    return enresult(())
    |");
   ("96 > enresult ( false ) ? |", "  96>    enresult(false)?
    |");
   ("97 > return Err ( ( ) ) |", "  97>    return Err(())
    |");
   ("< hooq_root > / tests / special / inert_attr_setting / result_types . rs", "<hooq_root>/tests/special/inert_attr_setting/result_types.rs");
   ("[ { 0 } : { 1 } : { 2 } ] { 3 : ? } { 4 }", "[{0}:{1}:{2}] {3:?}
{4}
")].
Definition ends_special_inert_attr_setting_result_types : list (N * N * (N * N * string)) :=
  [(3, 2, (3, 8, "")); (4, 2, (4, 28, "")); (4, 25, (4, 27, "")); (5, 2, (5, 35, "")); (5, 32, (5, 34, "")); (6, 2, (6, 42, "")); (6, 21, (6, 41, "")); (6, 22, (6, 30, """Result""")); (6, 32, (6, 40, """Either""")); (7, 11, (106, 2, "")); (8, 26, (8, 28, "")); (8, 30, (8, 32, "")); (9, 29, (9, 31, "")); (9, 33, (9, 35, "")); (11, 19, (11, 27, "")); (11, 41, (11, 43, "")); (11, 45, (13, 6, "")); (12, 11, (12, 16, "")); (15, 21, (15, 23, "")); (15, 34, (15, 36, "")); (15, 38, (15, 40, "")); (15, 42, (21, 6, "")); (16, 20, (16, 27, "")); (16, 29, (18, 10, "")); (17, 28, (17, 32, "")); (17, 29, (17, 31, "")); (20, 17, (20, 21, "")); (20, 18, (20, 20, "")); (23, 21, (23, 23, "")); (23, 34, (29, 6, "")); (24, 20, (24, 27, "")); (24, 29, (26, 10, "")); (25, 28, (25, 32, "")); (25, 29, (25, 31, "")); (28, 17, (28, 21, "")); (28, 18, (28, 20, "")); (31, 22, (31, 24, "")); (31, 38, (37, 6, "")); (32, 20, (32, 27, "")); (32, 29, (34, 10, "")); (33, 28, (33, 32, "")); (33, 29, (33, 31, "")); (36, 12, (36, 16, "")); (36, 13, (36, 15, "")); (43, 6, (43, 36, "")); (43, 29, (43, 35, "")); (43, 30, (43, 34, """Ok""")); (44, 22, (44, 24, "")); (44, 38, (54, 6, "")); (45, 20, (45, 27, "")); (45, 29, (47, 10, "")); (46, 28, (46, 32, "")); (46, 29, (46, 31, "")); (49, 20, (49, 27, "")); (49, 29, (51, 10, "")); (50, 22, (50, 26, "")); (50, 23, (50, 25, "")); (53, 11, (53, 15, "")); (53, 12, (53, 14, "")); (56, 22, (56, 24, "")); (56, 38, (68, 6, "")); (57, 20, (57, 27, "")); (57, 29, (59, 10, "")); (58, 28, (58, 32, "")); (58, 29, (58, 31, "")); (61, 20, (61, 27, "")); (61, 29, (64, 10, "")); (63, 23, (63, 27, "")); (63, 24, (63, 26, "")); (66, 10, (66, 40, "")); (66, 33, (66, 39, "")); (66, 34, (66, 38, """Ok""")); (67, 11, (67, 15, "")); (67, 12, (67, 14, "")); (74, 24, (74, 26, "")); (74, 37, (88, 6, "")); (75, 20, (75, 27, "")); (75, 29, (77, 10, "")); (76, 28, (76, 32, "")); (76, 29, (76, 31, "")); (79, 20, (79, 27, "")); (79, 29, (81, 10, "")); (80, 23, (80, 27, "")); (80, 24, (80, 26, "")); (83, 20, (83, 27, "")); (83, 29, (85, 10, "")); (84, 22, (84, 26, "")); (84, 23, (84, 25, "")); (87, 11, (87, 15, "")); (87, 12, (87, 14, "")); (90, 6, (90, 43, "")); (90, 36, (90, 42, "")); (90, 37, (90, 41, """Ok""")); (91, 24, (91, 26, "")); (91, 37, (105, 6, "")); (92, 20, (92, 27, "")); (92, 29, (94, 10, "")); (93, 28, (93, 32, "")); (93, 29, (93, 31, "")); (96, 20, (96, 27, "")); (96, 29, (98, 10, "")); (97, 23, (97, 27, "")); (97, 24, (97, 26, "")); (100, 20, (100, 27, "")); (100, 29, (102, 10, "")); (101, 22, (101, 26, "")); (101, 23, (101, 25, "")); (104, 11, (104, 15, "")); (104, 12, (104, 14, "")); (108, 2, (108, 8, "")); (109, 8, (109, 10, "")); (109, 11, (117, 2, "")); (110, 21, (110, 23, "")); (110, 30, (110, 32, "")); (111, 21, (111, 23, "")); (111, 30, (111, 32, "")); (112, 22, (112, 24, "")); (112, 35, (112, 37, "")); (113, 22, (113, 24, "")); (113, 31, (113, 33, "")); (114, 22, (114, 24, "")); (114, 31, (114, 33, "")); (115, 24, (115, 26, "")); (115, 33, (115, 35, "")); (116, 24, (116, 26, "")); (116, 33, (116, 35, ""))].
Definition su_special_inert_attr_setting_result_types : setup := mk_setup (mk_features false false true false false "hooq") doc_special_inert_attr_setting_result_types texts_special_inert_attr_setting_result_types strs_special_inert_attr_setting_result_types [] ends_special_inert_attr_setting_result_types "result_types".
Definition it_special_inert_attr_setting_result_types_0 : item := let S := at_ "<hooq_root>/tests/special/inert_attr_setting/result_types.rs" in
  (IMod [mk_attr false (S 4 1) (MList (mk_path false [mk_seg "hooq" [] (S 4 3); mk_seg "tail_expr_idents" [] (S 4 9)]) Parenth [] (S 4 25)); mk_attr false (S 5 1) (MList (mk_path false [mk_seg "hooq" [] (S 5 3); mk_seg "ignore_tail_expr_idents" [] (S 5 9)]) Parenth [] (S 5 32)); mk_attr false (S 6 1) (MList (mk_path false [mk_seg "hooq" [] (S 6 3); mk_seg "result_types" [] (S 6 9)]) Parenth [L S (LStr "Result") 6 22; O S "," 6 30; L S (LStr "Either") 6 32] (S 6 21))] [I S "mod" 7 1; I S "funcs" 7 5] (S 7 11) [(IOther [] [I S "type" 8 5; I S "Either" 8 10; O S "=" 8 17; I S "Result" 8 19; O S "<" 8 25; G S Parenth [] 8 26; O S "," 8 28; G S Parenth [] 8 30; O S ">" 8 32; O S ";" 8 33]); (IOther [] [I S "type" 9 5; I S "NotTarget" 9 10; O S "=" 9 20; I S "Result" 9 22; O S "<" 9 28; G S Parenth [] 9 29; O S "," 9 31; G S Parenth [] 9 33; O S ">" 9 35; O S ";" 9 36]); (IFn [] [] (mk_sig "enresult" (RetPath (mk_path false [mk_seg "Result" [O S "<" 11 37; I S "T" 11 38; O S "," 11 39; G S Parenth [] 11 41; O S ">" 11 43] (S 11 31)])) [I S "fn" 11 5; I S "enresult" 11 8; O S "<" 11 16; I S "T" 11 17; O S ">" 11 18; G S Parenth [I S "val" 11 20; O S ":" 11 23; I S "T" 11 25] 11 19; O S "-" 11 28; O S ">" 11 29; I S "Result" 11 31; O S "<" 11 37; I S "T" 11 38; O S "," 11 39; G S Parenth [] 11 41; O S ">" 11 43]) (S 11 45) [(SExpr (ECall [] (EPath [] (mk_path false [mk_seg "Ok" [] (S 12 9)])) (S 12 11) [(EPath [] (mk_path false [mk_seg "val" [] (S 12 12)]))] []) None)]); (IFn [] [I S "pub" 15 5] (mk_sig "result_fn" (RetPath (mk_path false [mk_seg "Result" [O S "<" 15 33; G S Parenth [] 15 34; O S "," 15 36; G S Parenth [] 15 38; O S ">" 15 40] (S 15 27)])) [I S "fn" 15 9; I S "result_fn" 15 12; G S Parenth [] 15 21; O S "-" 15 24; O S ">" 15 25; I S "Result" 15 27; O S "<" 15 33; G S Parenth [] 15 34; O S "," 15 36; G S Parenth [] 15 38; O S ">" 15 40]) (S 15 42) [(SExpr (EIf [] [I S "if" 16 9] (ETry [] (ECall [] (EPath [] (mk_path false [mk_seg "enresult" [] (S 16 12)])) (S 16 20) [(EPath [] (mk_path false [mk_seg "false" [] (S 16 21)]))] []) (S 16 27)) (S 16 29) [(SExpr (EReturn [] (S 17 13) (Some (ECall [] (EPath [] (mk_path false [mk_seg "enresult" [] (S 17 20)])) (S 17 28) [(ETuple [] (S 17 29) [] [])] []))) (Some (S 17 32)))] [] None) None); (SExpr (ECall [] (EPath [] (mk_path false [mk_seg "enresult" [] (S 20 9)])) (S 20 17) [(ETuple [] (S 20 18) [] [])] []) None)]); (IFn [] [I S "pub" 23 5] (mk_sig "either_fn" (RetPath (mk_path false [mk_seg "Either" [] (S 23 27)])) [I S "fn" 23 9; I S "either_fn" 23 12; G S Parenth [] 23 21; O S "-" 23 24; O S ">" 23 25; I S "Either" 23 27]) (S 23 34) [(SExpr (EIf [] [I S "if" 24 9] (ETry [] (ECall [] (EPath [] (mk_path false [mk_seg "enresult" [] (S 24 12)])) (S 24 20) [(EPath [] (mk_path false [mk_seg "false" [] (S 24 21)]))] []) (S 24 27)) (S 24 29) [(SExpr (EReturn [] (S 25 13) (Some (ECall [] (EPath [] (mk_path false [mk_seg "enresult" [] (S 25 20)])) (S 25 28) [(ETuple [] (S 25 29) [] [])] []))) (Some (S 25 32)))] [] None) None); (SExpr (ECall [] (EPath [] (mk_path false [mk_seg "enresult" [] (S 28 9)])) (S 28 17) [(ETuple [] (S 28 18) [] [])] []) None)]); (IFn [] [I S "pub" 31 5] (mk_sig "other_fn_1" (RetPath (mk_path false [mk_seg "NotTarget" [] (S 31 28)])) [I S "fn" 31 9; I S "other_fn_1" 31 12; G S Parenth [] 31 22; O S "-" 31 25; O S ">" 31 26; I S "NotTarget" 31 28]) (S 31 38) [(SExpr (EIf [] [I S "if" 32 9] (ETry [] (ECall [] (EPath [] (mk_path false [mk_seg "enresult" [] (S 32 12)])) (S 32 20) [(EPath [] (mk_path false [mk_seg "false" [] (S 32 21)]))] []) (S 32 27)) (S 32 29) [(SExpr (EReturn [] (S 33 13) (Some (ECall [] (EPath [] (mk_path false [mk_seg "enresult" [] (S 33 20)])) (S 33 28) [(ETuple [] (S 33 29) [] [])] []))) (Some (S 33 32)))] [] None) None); (SExpr (ECall [] (EPath [] (mk_path false [mk_seg "Err" [] (S 36 9)])) (S 36 12) [(ETuple [] (S 36 13) [] [])] []) None)]); (IFn [mk_attr false (S 43 5) (MList (mk_path false [mk_seg "hooq" [] (S 43 7); mk_seg "tail_expr_idents" [] (S 43 13)]) Parenth [L S (LStr "Ok") 43 30] (S 43 29))] [I S "pub" 44 5] (mk_sig "other_fn_2" (RetPath (mk_path false [mk_seg "NotTarget" [] (S 44 28)])) [I S "fn" 44 9; I S "other_fn_2" 44 12; G S Parenth [] 44 22; O S "-" 44 25; O S ">" 44 26; I S "NotTarget" 44 28]) (S 44 38) [(SExpr (EIf [] [I S "if" 45 9] (ETry [] (ECall [] (EPath [] (mk_path false [mk_seg "enresult" [] (S 45 12)])) (S 45 20) [(EPath [] (mk_path false [mk_seg "false" [] (S 45 21)]))] []) (S 45 27)) (S 45 29) [(SExpr (EReturn [] (S 46 13) (Some (ECall [] (EPath [] (mk_path false [mk_seg "enresult" [] (S 46 20)])) (S 46 28) [(ETuple [] (S 46 29) [] [])] []))) (Some (S 46 32)))] [] None) None); (SExpr (EIf [] [I S "if" 49 9] (ETry [] (ECall [] (EPath [] (mk_path false [mk_seg "enresult" [] (S 49 12)])) (S 49 20) [(EPath [] (mk_path false [mk_seg "false" [] (S 49 21)]))] []) (S 49 27)) (S 49 29) [(SExpr (EReturn [] (S 50 13) (Some (ECall [] (EPath [] (mk_path false [mk_seg "Ok" [] (S 50 20)])) (S 50 22) [(ETuple [] (S 50 23) [] [])] []))) (Some (S 50 26)))] [] None) None); (SExpr (ECall [] (EPath [] (mk_path false [mk_seg "Ok" [] (S 53 9)])) (S 53 11) [(ETuple [] (S 53 12) [] [])] []) None)]); (IFn [] [I S "pub" 56 5] (mk_sig "other_fn_3" (RetPath (mk_path false [mk_seg "NotTarget" [] (S 56 28)])) [I S "fn" 56 9; I S "other_fn_3" 56 12; G S Parenth [] 56 22; O S "-" 56 25; O S ">" 56 26; I S "NotTarget" 56 28]) (S 56 38) [(SExpr (EIf [] [I S "if" 57 9] (ETry [] (ECall [] (EPath [] (mk_path false [mk_seg "enresult" [] (S 57 12)])) (S 57 20) [(EPath [] (mk_path false [mk_seg "false" [] (S 57 21)]))] []) (S 57 27)) (S 57 29) [(SExpr (EReturn [] (S 58 13) (Some (ECall [] (EPath [] (mk_path false [mk_seg "enresult" [] (S 58 20)])) (S 58 28) [(ETuple [] (S 58 29) [] [])] []))) (Some (S 58 32)))] [] None) None); (SExpr (EIf [] [I S "if" 61 9] (ETry [] (ECall [] (EPath [] (mk_path false [mk_seg "enresult" [] (S 61 12)])) (S 61 20) [(EPath [] (mk_path false [mk_seg "false" [] (S 61 21)]))] []) (S 61 27)) (S 61 29) [(SExpr (EReturn [] (S 63 13) (Some (ECall [] (EPath [] (mk_path false [mk_seg "Err" [] (S 63 20)])) (S 63 23) [(ETuple [] (S 63 24) [] [])] []))) (Some (S 63 27)))] [] None) None); (SExpr (ECall [mk_attr false (S 66 9) (MList (mk_path false [mk_seg "hooq" [] (S 66 11); mk_seg "tail_expr_idents" [] (S 66 17)]) Parenth [L S (LStr "Ok") 66 34] (S 66 33))] (EPath [] (mk_path false [mk_seg "Ok" [] (S 67 9)])) (S 67 11) [(ETuple [] (S 67 12) [] [])] []) None)]); (IFn [] [I S "pub" 74 5] (mk_sig "other_fn_4_1" (RetPath (mk_path false [mk_seg "Either" [] (S 74 30)])) [I S "fn" 74 9; I S "other_fn_4_1" 74 12; G S Parenth [] 74 24; O S "-" 74 27; O S ">" 74 28; I S "Either" 74 30]) (S 74 37) [(SExpr (EIf [] [I S "if" 75 9] (ETry [] (ECall [] (EPath [] (mk_path false [mk_seg "enresult" [] (S 75 12)])) (S 75 20) [(EPath [] (mk_path false [mk_seg "false" [] (S 75 21)]))] []) (S 75 27)) (S 75 29) [(SExpr (EReturn [] (S 76 13) (Some (ECall [] (EPath [] (mk_path false [mk_seg "enresult" [] (S 76 20)])) (S 76 28) [(ETuple [] (S 76 29) [] [])] []))) (Some (S 76 32)))] [] None) None); (SExpr (EIf [] [I S "if" 79 9] (ETry [] (ECall [] (EPath [] (mk_path false [mk_seg "enresult" [] (S 79 12)])) (S 79 20) [(EPath [] (mk_path false [mk_seg "false" [] (S 79 21)]))] []) (S 79 27)) (S 79 29) [(SExpr (EReturn [] (S 80 13) (Some (ECall [] (EPath [] (mk_path false [mk_seg "Err" [] (S 80 20)])) (S 80 23) [(ETuple [] (S 80 24) [] [])] []))) (Some (S 80 27)))] [] None) None); (SExpr (EIf [] [I S "if" 83 9] (ETry [] (ECall [] (EPath [] (mk_path false [mk_seg "enresult" [] (S 83 12)])) (S 83 20) [(EPath [] (mk_path false [mk_seg "false" [] (S 83 21)]))] []) (S 83 27)) (S 83 29) [(SExpr (EReturn [] (S 84 13) (Some (ECall [] (EPath [] (mk_path false [mk_seg "Ok" [] (S 84 20)])) (S 84 22) [(ETuple [] (S 84 23) [] [])] []))) (Some (S 84 26)))] [] None) None); (SExpr (ECall [] (EPath [] (mk_path false [mk_seg "Ok" [] (S 87 9)])) (S 87 11) [(ETuple [] (S 87 12) [] [])] []) None)]); (IFn [mk_attr false (S 90 5) (MList (mk_path false [mk_seg "hooq" [] (S 90 7); mk_seg "ignore_tail_expr_idents" [] (S 90 13)]) Parenth [L S (LStr "Ok") 90 37] (S 90 36))] [I S "pub" 91 5] (mk_sig "other_fn_4_2" (RetPath (mk_path false [mk_seg "Either" [] (S 91 30)])) [I S "fn" 91 9; I S "other_fn_4_2" 91 12; G S Parenth [] 91 24; O S "-" 91 27; O S ">" 91 28; I S "Either" 91 30]) (S 91 37) [(SExpr (EIf [] [I S "if" 92 9] (ETry [] (ECall [] (EPath [] (mk_path false [mk_seg "enresult" [] (S 92 12)])) (S 92 20) [(EPath [] (mk_path false [mk_seg "false" [] (S 92 21)]))] []) (S 92 27)) (S 92 29) [(SExpr (EReturn [] (S 93 13) (Some (ECall [] (EPath [] (mk_path false [mk_seg "enresult" [] (S 93 20)])) (S 93 28) [(ETuple [] (S 93 29) [] [])] []))) (Some (S 93 32)))] [] None) None); (SExpr (EIf [] [I S "if" 96 9] (ETry [] (ECall [] (EPath [] (mk_path false [mk_seg "enresult" [] (S 96 12)])) (S 96 20) [(EPath [] (mk_path false [mk_seg "false" [] (S 96 21)]))] []) (S 96 27)) (S 96 29) [(SExpr (EReturn [] (S 97 13) (Some (ECall [] (EPath [] (mk_path false [mk_seg "Err" [] (S 97 20)])) (S 97 23) [(ETuple [] (S 97 24) [] [])] []))) (Some (S 97 27)))] [] None) None); (SExpr (EIf [] [I S "if" 100 9] (ETry [] (ECall [] (EPath [] (mk_path false [mk_seg "enresult" [] (S 100 12)])) (S 100 20) [(EPath [] (mk_path false [mk_seg "false" [] (S 100 21)]))] []) (S 100 27)) (S 100 29) [(SExpr (EReturn [] (S 101 13) (Some (ECall [] (EPath [] (mk_path false [mk_seg "Ok" [] (S 101 20)])) (S 101 22) [(ETuple [] (S 101 23) [] [])] []))) (Some (S 101 26)))] [] None) None); (SExpr (ECall [] (EPath [] (mk_path false [mk_seg "Ok" [] (S 104 9)])) (S 104 11) [(ETuple [] (S 104 12) [] [])] []) None)])]).
Definition args_special_inert_attr_setting_result_types_0 : list meta := let S := at_ "<hooq_root>/tests/special/inert_attr_setting/result_types.rs" in [].
Definition rec_special_inert_attr_setting_result_types_0 : list string :=
  ["mod funcs { type Either = Result < ( ) , ( ) > ; type NotTarget = Result < ( ) , ( ) > ; fn enresult < T > ( val : T ) - > Result < T , ( ) > { Ok (";
   "val ) . inspect_err ( | e | { let path = ""<hooq_root>/tests/special/inert_attr_setting/result_types.rs"" ; let line = 12usize ; let col = 9usize ; let";
   "expr = ""\s\s12>\s\s\s\sOk(val)\n\s\s\s\s|"" ; { : : std : : io : : _eprint ( format_args ! ( ""[{0}:{1}:{2}]\s{3:?}\n{4}\n"" , path , line , col , e ,";
   "expr ) ) ; } ; } ) } pub fn result_fn ( ) - > Result < ( ) , ( ) > { if enresult ( false ) . inspect_err ( | e | { let path =";
   """<hooq_root>/tests/special/inert_attr_setting/result_types.rs"" ; let line = 16usize ; let col = 27usize ; let expr =";
   """\s\s16>\s\s\s\senresult(false)?\n\s\s\s\s|"" ; { : : std : : io : : _eprint ( format_args ! ( ""[{0}:{1}:{2}]\s{3:?}\n{4}\n"" , path , line , col , e ,";
   "expr ) ) ; } ; } ) ? { return enresult ( ( ) ) . inspect_err ( | e | { let path = ""<hooq_root>/tests/special/inert_attr_setting/result_types.rs"" ; let";
   "line = 17usize ; let col = 13usize ; let expr = ""\s\s17>\s\s\s\sreturn\senresult(())\n\s\s\s\s|"" ; { : : std : : io : : _eprint ( format_args ! (";
   """[{0}:{1}:{2}]\s{3:?}\n{4}\n"" , path , line , col , e , expr ) ) ; } ; } ) ; } enresult ( ( ) ) . inspect_err ( | e | { let path =";
   """<hooq_root>/tests/special/inert_attr_setting/result_types.rs"" ; let line = 20usize ; let col = 9usize ; let expr =";
   """\s\s20>\s\s\s\senresult(())\n\s\s\s\s|"" ; { : : std : : io : : _eprint ( format_args ! ( ""[{0}:{1}:{2}]\s{3:?}\n{4}\n"" , path , line , col , e , expr";
   ") ) ; } ; } ) } pub fn either_fn ( ) - > Either { if enresult ( false ) . inspect_err ( | e | { let path =";
   """<hooq_root>/tests/special/inert_attr_setting/result_types.rs"" ; let line = 24usize ; let col = 27usize ; let expr =";
   """\s\s24>\s\s\s\senresult(false)?\n\s\s\s\s|"" ; { : : std : : io : : _eprint ( format_args ! ( ""[{0}:{1}:{2}]\s{3:?}\n{4}\n"" , path , line , col , e ,";
   "expr ) ) ; } ; } ) ? { return enresult ( ( ) ) . inspect_err ( | e | { let path = ""<hooq_root>/tests/special/inert_attr_setting/result_types.rs"" ; let";
   "line = 25usize ; let col = 13usize ; let expr = ""\s\s25>\s\s\s\sreturn\senresult(())\n\s\s\s\s|"" ; { : : std : : io : : _eprint ( format_args ! (";
   """[{0}:{1}:{2}]\s{3:?}\n{4}\n"" , path , line , col , e , expr ) ) ; } ; } ) ; } enresult ( ( ) ) . inspect_err ( | e | { let path =";
   """<hooq_root>/tests/special/inert_attr_setting/result_types.rs"" ; let line = 28usize ; let col = 9usize ; let expr =";
   """\s\s28>\s\s\s\senresult(())\n\s\s\s\s|"" ; { : : std : : io : : _eprint ( format_args ! ( ""[{0}:{1}:{2}]\s{3:?}\n{4}\n"" , path , line , col , e , expr";
   ") ) ; } ; } ) } pub fn other_fn_1 ( ) - > NotTarget { if enresult ( false ) . inspect_err ( | e | { let path =";
   """<hooq_root>/tests/special/inert_attr_setting/result_types.rs"" ; let line = 32usize ; let col = 27usize ; let expr =";
   """\s\s32>\s\s\s\senresult(false)?\n\s\s\s\s|"" ; { : : std : : io : : _eprint ( format_args ! ( ""[{0}:{1}:{2}]\s{3:?}\n{4}\n"" , path , line , col , e ,";
   "expr ) ) ; } ; } ) ? { return enresult ( ( ) ) ; } Err ( ( ) ) } pub fn other_fn_2 ( ) - > NotTarget { if enresult ( false ) . inspect_err ( | e | {";
   "let path = ""<hooq_root>/tests/special/inert_attr_setting/result_types.rs"" ; let line = 45usize ; let col = 27usize ; let expr =";
   """\s\s45>\s\s\s\senresult(false)?\n\s\s\s\s|"" ; { : : std : : io : : _eprint ( format_args ! ( ""[{0}:{1}:{2}]\s{3:?}\n{4}\n"" , path , line , col , e ,";
   "expr ) ) ; } ; } ) ? { return enresult ( ( ) ) ; } if enresult ( false ) . inspect_err ( | e | { let path =";
   """<hooq_root>/tests/special/inert_attr_setting/result_types.rs"" ; let line = 49usize ; let col = 27usize ; let expr =";
   """\s\s49>\s\s\s\senresult(false)?\n\s\s\s\s|"" ; { : : std : : io : : _eprint ( format_args ! ( ""[{0}:{1}:{2}]\s{3:?}\n{4}\n"" , path , line , col , e ,";
   "expr ) ) ; } ; } ) ? { return Ok ( ( ) ) . inspect_err ( | e | { let path = ""<hooq_root>/tests/special/inert_attr_setting/result_types.rs"" ; let line";
   "= 50usize ; let col = 13usize ; let expr = ""\s\s50>\s\s\s\sreturn\sOk(())\n\s\s\s\s|"" ; { : : std : : io : : _eprint ( format_args ! (";
   """[{0}:{1}:{2}]\s{3:?}\n{4}\n"" , path , line , col , e , expr ) ) ; } ; } ) ; } Ok ( ( ) ) . inspect_err ( | e | { let path =";
   """<hooq_root>/tests/special/inert_attr_setting/result_types.rs"" ; let line = 53usize ; let col = 9usize ; let expr = ""\s\s53>\s\s\s\sOk(())\n\s\s\s\s|""";
   "; { : : std : : io : : _eprint ( format_args ! ( ""[{0}:{1}:{2}]\s{3:?}\n{4}\n"" , path , line , col , e , expr ) ) ; } ; } ) } pub fn other_fn_3 ( ) -";
   "> NotTarget { if enresult ( false ) . inspect_err ( | e | { let path = ""<hooq_root>/tests/special/inert_attr_setting/result_types.rs"" ; let line =";
   "57usize ; let col = 27usize ; let expr = ""\s\s57>\s\s\s\senresult(false)?\n\s\s\s\s|"" ; { : : std : : io : : _eprint ( format_args ! (";
   """[{0}:{1}:{2}]\s{3:?}\n{4}\n"" , path , line , col , e , expr ) ) ; } ; } ) ? { return enresult ( ( ) ) ; } if enresult ( false ) . inspect_err ( | e |";
   "{ let path = ""<hooq_root>/tests/special/inert_attr_setting/result_types.rs"" ; let line = 61usize ; let col = 27usize ; let expr =";
   """\s\s61>\s\s\s\senresult(false)?\n\s\s\s\s|"" ; { : : std : : io : : _eprint ( format_args ! ( ""[{0}:{1}:{2}]\s{3:?}\n{4}\n"" , path , line , col , e ,";
   "expr ) ) ; } ; } ) ? { return Err ( ( ) ) ; } Ok ( ( ) ) . inspect_err ( | e | { let path =";
   """<hooq_root>/tests/special/inert_attr_setting/result_types.rs"" ; let line = 67usize ; let col = 9usize ; let expr = ""\s\s67>\s\s\s\sOk(())\n\s\s\s\s|""";
   "; { : : std : : io : : _eprint ( format_args ! ( ""[{0}:{1}:{2}]\s{3:?}\n{4}\n"" , path , line , col , e , expr ) ) ; } ; } ) } pub fn other_fn_4_1 ( )";
   "- > Either { if enresult ( false ) . inspect_err ( | e | { let path = ""<hooq_root>/tests/special/inert_attr_setting/result_types.rs"" ; let line =";
   "75usize ; let col = 27usize ; let expr = ""\s\s75>\s\s\s\senresult(false)?\n\s\s\s\s|"" ; { : : std : : io : : _eprint ( format_args ! (";
   """[{0}:{1}:{2}]\s{3:?}\n{4}\n"" , path , line , col , e , expr ) ) ; } ; } ) ? { return enresult ( ( ) ) . inspect_err ( | e | { let path =";
   """<hooq_root>/tests/special/inert_attr_setting/result_types.rs"" ; let line = 76usize ; let col = 13usize ; let expr =";
   """\s\s76>\s\s\s\sreturn\senresult(())\n\s\s\s\s|"" ; { : : std : : io : : _eprint ( format_args ! ( ""[{0}:{1}:{2}]\s{3:?}\n{4}\n"" , path , line , col ,";
   "e , expr ) ) ; } ; } ) ; } if enresult ( false ) . inspect_err ( | e | { let path = ""<hooq_root>/tests/special/inert_attr_setting/result_types.rs"" ;";
   "let line = 79usize ; let col = 27usize ; let expr = ""\s\s79>\s\s\s\senresult(false)?\n\s\s\s\s|"" ; { : : std : : io : : _eprint ( format_args ! (";
   """[{0}:{1}:{2}]\s{3:?}\n{4}\n"" , path , line , col , e , expr ) ) ; } ; } ) ? { return Err ( ( ) ) . inspect_err ( | e | { let path =";
   """<hooq_root>/tests/special/inert_attr_setting/result_types.rs"" ; let line = 80usize ; let col = 13usize ; let expr =";
   """\s\s80>\s\s\s\sreturn\sErr(())\n\s\s\s\s|"" ; { : : std : : io : : _eprint ( format_args ! ( ""[{0}:{1}:{2}]\s{3:?}\n{4}\n"" , path , line , col , e ,";
   "expr ) ) ; } ; } ) ; } if enresult ( false ) . inspect_err ( | e | { let path = ""<hooq_root>/tests/special/inert_attr_setting/result_types.rs"" ; let";
   "line = 83usize ; let col = 27usize ; let expr = ""\s\s83>\s\s\s\senresult(false)?\n\s\s\s\s|"" ; { : : std : : io : : _eprint ( format_args ! (";
   """[{0}:{1}:{2}]\s{3:?}\n{4}\n"" , path , line , col , e , expr ) ) ; } ; } ) ? { return Ok ( ( ) ) . inspect_err ( | e | { let path =";
   """<hooq_root>/tests/special/inert_attr_setting/result_types.rs"" ; let line = 84usize ; let col = 13usize ; let expr =";
   """\s\s84>\s\s\s\sreturn\sOk(())\n\s\s\s\s|"" ; { : : std : : io : : _eprint ( format_args ! ( ""[{0}:{1}:{2}]\s{3:?}\n{4}\n"" , path , line , col , e ,";
   "expr ) ) ; } ; } ) ; } Ok ( ( ) ) . inspect_err ( | e | { let path = ""<hooq_root>/tests/special/inert_attr_setting/result_types.rs"" ; let line =";
   "87usize ; let col = 9usize ; let expr = ""\s\s87>\s\s\s\sOk(())\n\s\s\s\s|"" ; { : : std : : io : : _eprint ( format_args ! (";
   """[{0}:{1}:{2}]\s{3:?}\n{4}\n"" , path , line , col , e , expr ) ) ; } ; } ) } pub fn other_fn_4_2 ( ) - > Either { if enresult ( false ) . inspect_err";
   "( | e | { let path = ""<hooq_root>/tests/special/inert_attr_setting/result_types.rs"" ; let line = 92usize ; let col = 27usize ; let expr =";
   """\s\s92>\s\s\s\senresult(false)?\n\s\s\s\s|"" ; { : : std : : io : : _eprint ( format_args ! ( ""[{0}:{1}:{2}]\s{3:?}\n{4}\n"" , path , line , col , e ,";
   "expr ) ) ; } ; } ) ? { return enresult ( ( ) ) . inspect_err ( | e | { let path = ""<hooq_root>/tests/special/inert_attr_setting/result_types.rs"" ; let";
   "line = 93usize ; let col = 13usize ; let expr = ""\s\s93>\s\s\s\sreturn\senresult(())\n\s\s\s\s|"" ; { : : std : : io : : _eprint ( format_args ! (";
   """[{0}:{1}:{2}]\s{3:?}\n{4}\n"" , path , line , col , e , expr ) ) ; } ; } ) ; } if enresult ( false ) . inspect_err ( | e | { let path =";
   """<hooq_root>/tests/special/inert_attr_setting/result_types.rs"" ; let line = 96usize ; let col = 27usize ; let expr =";
   """\s\s96>\s\s\s\senresult(false)?\n\s\s\s\s|"" ; { : : std : : io : : _eprint ( format_args ! ( ""[{0}:{1}:{2}]\s{3:?}\n{4}\n"" , path , line , col , e ,";
   "expr ) ) ; } ; } ) ? { return Err ( ( ) ) . inspect_err ( | e | { let path = ""<hooq_root>/tests/special/inert_attr_setting/result_types.rs"" ; let line";
   "= 97usize ; let col = 13usize ; let expr = ""\s\s97>\s\s\s\sreturn\sErr(())\n\s\s\s\s|"" ; { : : std : : io : : _eprint ( format_args ! (";
   """[{0}:{1}:{2}]\s{3:?}\n{4}\n"" , path , line , col , e , expr ) ) ; } ; } ) ; } if enresult ( false ) . inspect_err ( | e | { let path =";
   """<hooq_root>/tests/special/inert_attr_setting/result_types.rs"" ; let line = 100usize ; let col = 27usize ; let expr =";
   """\s100>\s\s\s\senresult(false)?\n\s\s\s\s|"" ; { : : std : : io : : _eprint ( format_args ! ( ""[{0}:{1}:{2}]\s{3:?}\n{4}\n"" , path , line , col , e ,";
   "expr ) ) ; } ; } ) ? { return Ok ( ( ) ) ; } Ok ( ( ) ) } }"].
(** mod funcs *)
Example recorded_special_inert_attr_setting_result_types_0 : expanded su_special_inert_attr_setting_result_types args_special_inert_attr_setting_result_types_0 it_special_inert_attr_setting_result_types_0 = words rec_special_inert_attr_setting_result_types_0.
Proof. vm_compute. reflexivity. Qed.
(** ** hooq-macros/tests/special/inert_attr_setting/tail_expr_idents.rs *)
Definition doc_special_inert_attr_setting_tail_expr_idents : list (string * ftable) := [].
Definition texts_special_inert_attr_setting_tail_expr_idents : list (string * list tt) := let S := at_ "" in [].
Definition strs_special_inert_attr_setting_tail_expr_idents : list (string * string) :=
  [("24 > enresult ( ( ) ) ? |", "  24>    enresult(())?
    |");
   ("27 > enresult ( false ) ? |", "  27>    enresult(false)?
    |");
   ("31 > enresult ( false ) ? |", "  31>    enresult(false)?
    |");
   ("36 > enresult ( false ) ? |", "  36>    enresult(false)?
    |");
   ("37 > return Left ( ) |", "  37>    return Left()
    |");
   ("40 > Right ( ) |", "  40>    Right()
    |");
   ("42 > Right ( ) |", "  42>    Right()
    |");
   ("< hooq_root > / tests / special / inert_attr_setting / tail_expr_idents . rs", "<hooq_root>/tests/special/inert_attr_setting/tail_expr_idents.rs");
   ("[ { 0 } : { 1 } : { 2 } ] { 3 : ? } { 4 }", "[{0}:{1}:{2}] {3:?}
{4}
")].
Definition ends_special_inert_attr_setting_tail_expr_idents : list (N * N * (N * N * string)) :=
  [(9, 15, (9, 23, "")); (9, 37, (9, 39, "")); (9, 41, (11, 2, "")); (10, 7, (10, 12, "")); (13, 2, (13, 8, "")); (14, 2, (14, 24, "")); (14, 21, (14, 23, "")); (15, 2, (15, 43, "")); (15, 25, (15, 42, "")); (15, 26, (15, 33, """Right""")); (15, 35, (15, 41, """Left""")); (16, 2, (16, 35, "")); (16, 32, (16, 34, "")); (17, 8, (17, 10, "")); (17, 21, (17, 23, "")); (17, 25, (17, 27, "")); (17, 29, (43, 2, "")); (18, 6, (18, 29, "")); (18, 12, (18, 28, "")); (19, 29, (19, 31, "")); (19, 33, (19, 35, "")); (19, 40, (19, 44, "")); (19, 41, (19, 43, "")); (20, 6, (20, 29, "")); (20, 12, (20, 28, "")); (21, 28, (21, 30, "")); (21, 32, (21, 34, "")); (21, 40, (21, 44, "")); (21, 41, (21, 43, "")); (24, 13, (24, 17, "")); (24, 14, (24, 16, "")); (27, 16, (27, 23, "")); (27, 25, (29, 6, "")); (28, 18, (28, 22, "")); (28, 19, (28, 21, "")); (31, 16, (31, 23, "")); (31, 25, (33, 6, "")); (32, 19, (32, 23, "")); (32, 20, (32, 22, "")); (36, 16, (36, 23, "")); (36, 25, (38, 6, "")); (37, 20, (37, 22, "")); (40, 21, (40, 23, "")); (42, 10, (42, 12, "")); (45, 2, (45, 8, "")); (46, 8, (46, 10, "")); (46, 11, (48, 2, "")); (47, 9, (47, 11, "")); (47, 18, (47, 20, ""))].
Definition su_special_inert_attr_setting_tail_expr_idents : setup := mk_setup (mk_features false false true false false "hooq") doc_special_inert_attr_setting_tail_expr_idents texts_special_inert_attr_setting_tail_expr_idents strs_special_inert_attr_setting_tail_expr_idents [] ends_special_inert_attr_setting_tail_expr_idents "tail_expr_idents".
Definition it_special_inert_attr_setting_tail_expr_idents_0 : item := let S := at_ "<hooq_root>/tests/special/inert_attr_setting/tail_expr_idents.rs" in
  (IFn [mk_attr false (S 14 1) (MList (mk_path false [mk_seg "hooq" [] (S 14 3); mk_seg "result_types" [] (S 14 9)]) Parenth [] (S 14 21)); mk_attr false (S 15 1) (MList (mk_path false [mk_seg "hooq" [] (S 15 3); mk_seg "tail_expr_idents" [] (S 15 9)]) Parenth [L S (LStr "Right") 15 26; O S "," 15 33; L S (LStr "Left") 15 35] (S 15 25)); mk_attr false (S 16 1) (MList (mk_path false [mk_seg "hooq" [] (S 16 3); mk_seg "ignore_tail_expr_idents" [] (S 16 9)]) Parenth [] (S 16 32))] [] (mk_sig "func" (RetPath (mk_path false [mk_seg "Result" [O S "<" 17 20; G S Parenth [] 17 21; O S "," 17 23; G S Parenth [] 17 25; O S ">" 17 27] (S 17 14)])) [I S "fn" 17 1; I S "func" 17 4; G S Parenth [] 17 8; O S "-" 17 11; O S ">" 17 12; I S "Result" 17 14; O S "<" 17 20; G S Parenth [] 17 21; O S "," 17 23; G S Parenth [] 17 25; O S ">" 17 27]) (S 17 29) [(SLocalInit [mk_attr false (S 18 5) (MList (mk_path false [mk_seg "allow" [] (S 18 7)]) Parenth [I S "non_snake_case" 18 13] (S 18 12))] [I S "let" 19 5; I S "Right" 19 9; O S "=" 19 15] (EClosure [] [O S "|" 19 17; O S "|" 19 18] RetNone (ECall [] (EPath [] (mk_path false [mk_seg "Result" [O S ":" 19 26; O S ":" 19 27; O S "<" 19 28; G S Parenth [] 19 29; O S "," 19 31; G S Parenth [] 19 33; O S ">" 19 35] (S 19 20); mk_seg "Ok" [] (S 19 38)])) (S 19 40) [(ETuple [] (S 19 41) [] [])] [])) [] None [O S ";" 19 44]); (SLocalInit [mk_attr false (S 20 5) (MList (mk_path false [mk_seg "allow" [] (S 20 7)]) Parenth [I S "non_snake_case" 20 13] (S 20 12))] [I S "let" 21 5; I S "Left" 21 9; O S "=" 21 14] (EClosure [] [O S "|" 21 16; O S "|" 21 17] RetNone (ECall [] (EPath [] (mk_path false [mk_seg "Result" [O S ":" 21 25; O S ":" 21 26; O S "<" 21 27; G S Parenth [] 21 28; O S "," 21 30; G S Parenth [] 21 32; O S ">" 21 34] (S 21 19); mk_seg "Err" [] (S 21 37)])) (S 21 40) [(ETuple [] (S 21 41) [] [])] [])) [] None [O S ";" 21 44]); (SExpr (ETry [] (ECall [] (EPath [] (mk_path false [mk_seg "enresult" [] (S 24 5)])) (S 24 13) [(ETuple [] (S 24 14) [] [])] []) (S 24 17)) (Some (S 24 18))); (SExpr (EIf [] [I S "if" 27 5] (ETry [] (ECall [] (EPath [] (mk_path false [mk_seg "enresult" [] (S 27 8)])) (S 27 16) [(EPath [] (mk_path false [mk_seg "false" [] (S 27 17)]))] []) (S 27 23)) (S 27 25) [(SExpr (EReturn [] (S 28 9) (Some (ECall [] (EPath [] (mk_path false [mk_seg "Ok" [] (S 28 16)])) (S 28 18) [(ETuple [] (S 28 19) [] [])] []))) (Some (S 28 22)))] [] None) None); (SExpr (EIf [] [I S "if" 31 5] (ETry [] (ECall [] (EPath [] (mk_path false [mk_seg "enresult" [] (S 31 8)])) (S 31 16) [(EPath [] (mk_path false [mk_seg "false" [] (S 31 17)]))] []) (S 31 23)) (S 31 25) [(SExpr (EReturn [] (S 32 9) (Some (ECall [] (EPath [] (mk_path false [mk_seg "Err" [] (S 32 16)])) (S 32 19) [(ETuple [] (S 32 20) [] [])] []))) (Some (S 32 23)))] [] None) None); (SExpr (EIf [] [I S "if" 36 5] (ETry [] (ECall [] (EPath [] (mk_path false [mk_seg "enresult" [] (S 36 8)])) (S 36 16) [(EPath [] (mk_path false [mk_seg "false" [] (S 36 17)]))] []) (S 36 23)) (S 36 25) [(SExpr (EReturn [] (S 37 9) (Some (ECall [] (EPath [] (mk_path false [mk_seg "Left" [] (S 37 16)])) (S 37 20) [] []))) (Some (S 37 22)))] [] None) None); (SLocalInit [] [I S "let" 40 5; I S "_" 40 9; O S "=" 40 11] (EClosure [] [O S "|" 40 13; O S "|" 40 14] RetNone (ECall [] (EPath [] (mk_path false [mk_seg "Right" [] (S 40 16)])) (S 40 21) [] [])) [] None [O S ";" 40 23]); (SExpr (ECall [] (EPath [] (mk_path false [mk_seg "Right" [] (S 42 5)])) (S 42 10) [] []) None)]).
Definition args_special_inert_attr_setting_tail_expr_idents_0 : list meta := let S := at_ "<hooq_root>/tests/special/inert_attr_setting/tail_expr_idents.rs" in [].
Definition rec_special_inert_attr_setting_tail_expr_idents_0 : list string :=
  ["fn func ( ) - > Result < ( ) , ( ) > { # [ allow ( non_snake_case ) ] let Right = | | Result : : < ( ) , ( ) > : : Ok ( ( ) ) ; # [ allow (";
   "non_snake_case ) ] let Left = | | Result : : < ( ) , ( ) > : : Err ( ( ) ) ; enresult ( ( ) ) . inspect_err ( | e | { let path =";
   """<hooq_root>/tests/special/inert_attr_setting/tail_expr_idents.rs"" ; let line = 24usize ; let col = 17usize ; let expr =";
   """\s\s24>\s\s\s\senresult(())?\n\s\s\s\s|"" ; { : : std : : io : : _eprint ( format_args ! ( ""[{0}:{1}:{2}]\s{3:?}\n{4}\n"" , path , line , col , e ,";
   "expr ) ) ; } ; } ) ? ; if enresult ( false ) . inspect_err ( | e | { let path = ""<hooq_root>/tests/special/inert_attr_setting/tail_expr_idents.rs"" ;";
   "let line = 27usize ; let col = 23usize ; let expr = ""\s\s27>\s\s\s\senresult(false)?\n\s\s\s\s|"" ; { : : std : : io : : _eprint ( format_args ! (";
   """[{0}:{1}:{2}]\s{3:?}\n{4}\n"" , path , line , col , e , expr ) ) ; } ; } ) ? { return Ok ( ( ) ) ; } if enresult ( false ) . inspect_err ( | e | { let";
   "path = ""<hooq_root>/tests/special/inert_attr_setting/tail_expr_idents.rs"" ; let line = 31usize ; let col = 23usize ; let expr =";
   """\s\s31>\s\s\s\senresult(false)?\n\s\s\s\s|"" ; { : : std : : io : : _eprint ( format_args ! ( ""[{0}:{1}:{2}]\s{3:?}\n{4}\n"" , path , line , col , e ,";
   "expr ) ) ; } ; } ) ? { return Err ( ( ) ) ; } if enresult ( false ) . inspect_err ( | e | { let path =";
   """<hooq_root>/tests/special/inert_attr_setting/tail_expr_idents.rs"" ; let line = 36usize ; let col = 23usize ; let expr =";
   """\s\s36>\s\s\s\senresult(false)?\n\s\s\s\s|"" ; { : : std : : io : : _eprint ( format_args ! ( ""[{0}:{1}:{2}]\s{3:?}\n{4}\n"" , path , line , col , e ,";
   "expr ) ) ; } ; } ) ? { return Left ( ) . inspect_err ( | e | { let path = ""<hooq_root>/tests/special/inert_attr_setting/tail_expr_idents.rs"" ; let";
   "line = 37usize ; let col = 9usize ; let expr = ""\s\s37>\s\s\s\sreturn\sLeft()\n\s\s\s\s|"" ; { : : std : : io : : _eprint ( format_args ! (";
   """[{0}:{1}:{2}]\s{3:?}\n{4}\n"" , path , line , col , e , expr ) ) ; } ; } ) ; } let _ = | | Right ( ) . inspect_err ( | e | { let path =";
   """<hooq_root>/tests/special/inert_attr_setting/tail_expr_idents.rs"" ; let line = 40usize ; let col = 16usize ; let expr =";
   """\s\s40>\s\s\s\sRight()\n\s\s\s\s|"" ; { : : std : : io : : _eprint ( format_args ! ( ""[{0}:{1}:{2}]\s{3:?}\n{4}\n"" , path , line , col , e , expr ) )";
   "; } ; } ) ; Right ( ) . inspect_err ( | e | { let path = ""<hooq_root>/tests/special/inert_attr_setting/tail_expr_idents.rs"" ; let line = 42usize ; let";
   "col = 5usize ; let expr = ""\s\s42>\s\s\s\sRight()\n\s\s\s\s|"" ; { : : std : : io : : _eprint ( format_args ! ( ""[{0}:{1}:{2}]\s{3:?}\n{4}\n"" , path ,";
   "line , col , e , expr ) ) ; } ; } ) }"].
(** func *)
Example recorded_special_inert_attr_setting_tail_expr_idents_0 : expanded su_special_inert_attr_setting_tail_expr_idents args_special_inert_attr_setting_tail_expr_idents_0 it_special_inert_attr_setting_tail_expr_idents_0 = words rec_special_inert_attr_setting_tail_expr_idents_0.
Proof. vm_compute. reflexivity. Qed.
(** ** hooq-macros/tests/special/inert_attr_setting/trait_use.rs *)
Definition doc_special_inert_attr_setting_trait_use : list (string * ftable) := [].
Definition texts_special_inert_attr_setting_trait_use : list (string * list tt) := let S := at_ "" in [].
Definition strs_special_inert_attr_setting_trait_use : list (string * string) :=
  [].
Definition ends_special_inert_attr_setting_trait_use : list (N * N * (N * N * string)) :=
  [(1, 18, (22, 2, "")); (3, 21, (5, 6, "")); (4, 17, (4, 23, "")); (7, 39, (11, 6, "")); (8, 17, (8, 23, "")); (8, 32, (10, 10, "")); (13, 21, (15, 6, "")); (14, 17, (14, 23, "")); (17, 39, (21, 6, "")); (18, 17, (18, 23, "")); (18, 32, (20, 10, "")); (24, 21, (35, 2, "")); (27, 6, (27, 79, "")); (27, 11, (27, 78, "")); (27, 21, (27, 77, "")); (28, 6, (28, 30, "")); (28, 19, (28, 29, "")); (28, 26, (28, 28, "")); (29, 26, (29, 48, "")); (32, 5, (34, 6, "")); (33, 21, (33, 23, "")); (37, 2, (37, 8, "")); (38, 8, (38, 10, "")); (38, 11, (41, 2, "")); (39, 39, (39, 43, "")); (40, 30, (40, 38, "")); (40, 45, (40, 47, ""))].
Definition su_special_inert_attr_setting_trait_use : setup := mk_setup (mk_features false false true false false "hooq") doc_special_inert_attr_setting_trait_use texts_special_inert_attr_setting_trait_use strs_special_inert_attr_setting_trait_use [] ends_special_inert_attr_setting_trait_use "trait_use".
Definition it_special_inert_attr_setting_trait_use_0 : item := let S := at_ "hooq-macros/tests/special/inert_attr_setting/trait_use.rs" in
  (IFn [mk_attr false (S 28 5) (MList (mk_path false [mk_seg "hooq" [] (S 28 7); mk_seg "method" [] (S 28 13)]) Parenth [O S "." 28 20; I S "hook2" 28 21; G S Parenth [] 28 26] (S 28 19))] [I S "pub" 29 5] (mk_sig "use_hook" (RetPath (mk_path false [mk_seg "Result" [O S "<" 29 58; I S "T" 29 59; O S "," 29 60; I S "E" 29 62; O S ">" 29 63] (S 29 52)])) [I S "fn" 29 9; I S "use_hook" 29 12; O S "<" 29 20; I S "T" 29 21; O S "," 29 22; I S "E" 29 24; O S ">" 29 25; G S Parenth [I S "result" 29 27; O S ":" 29 33; I S "Result" 29 35; O S "<" 29 41; I S "T" 29 42; O S "," 29 43; I S "E" 29 45; O S ">" 29 46] 29 26; O S "-" 29 49; O S ">" 29 50; I S "Result" 29 52; O S "<" 29 58; I S "T" 29 59; O S "," 29 60; I S "E" 29 62; O S ">" 29 63; I S "where" 30 5; I S "E" 31 9; O S ":" 31 10; I S "std" 31 12; O S ":" 31 15; O S ":" 31 16; I S "fmt" 31 17; O S ":" 31 20; O S ":" 31 21; I S "Debug" 31 22; O S "," 31 27]) (S 32 5) [(SExpr (EMethodCall [] (EPath [] (mk_path false [mk_seg "result" [] (S 33 9)])) [O S "." 33 15; I S "hook1" 33 16] (S 33 21) [] []) None)]).
Definition args_special_inert_attr_setting_trait_use_0 : list meta := let S := at_ "hooq-macros/tests/special/inert_attr_setting/trait_use.rs" in [(MList (mk_path false [mk_seg "trait_use" [] (S 27 12)]) Parenth [I S "super" 27 22; O S ":" 27 27; O S ":" 27 28; I S "trait_define" 27 29; O S ":" 27 41; O S ":" 27 42; I S "Hook1" 27 43; O S "," 27 48; I S "super" 27 50; O S ":" 27 55; O S ":" 27 56; I S "trait_define" 27 57; O S ":" 27 69; O S ":" 27 70; I S "Hook2" 27 71] (S 27 21))].
Definition rec_special_inert_attr_setting_trait_use_0 : list string :=
  ["# [ allow ( unused ) ] use super : : trait_define : : Hook1 as _ ; # [ allow ( unused ) ] use super : : trait_define : : Hook2 as _ ; pub fn use_hook";
   "< T , E > ( result : Result < T , E > ) - > Result < T , E > where E : std : : fmt : : Debug , { result . hook1 ( ) . hook2 ( ) }"].
(** mod trait_use_inner/use_hook *)
Example recorded_special_inert_attr_setting_trait_use_0 : expanded su_special_inert_attr_setting_trait_use args_special_inert_attr_setting_trait_use_0 it_special_inert_attr_setting_trait_use_0 = words rec_special_inert_attr_setting_trait_use_0.
Proof. vm_compute. reflexivity. Qed.
(** ** hooq-macros/tests/special/macro.rs *)
Definition doc_special_macro : list (string * ftable) := [].
Definition texts_special_macro : list (string * list tt) := let S := at_ "" in [].
Definition strs_special_macro : list (string * string) :=
  [("( no tag )", "(no tag)");
   ("172 > enresult ( ( ) ) ? |", " 172>    enresult(())?
    |");
   ("176 > Err ( ( ) ) |", " 176>    Err(())
    |");
   ("< hooq_root > / tests / special / macro . rs", "<hooq_root>/tests/special/macro.rs");
   ("Err ( ( ) )", "Err(())");
   ("It ' s true", "It's true
");
   ("[ { 0 } : { 1 } : { 2 } ] { 3 : ? } { 4 }", "[{0}:{1}:{2}] {3:?}
{4}
");
   ("enresult ( ""for\sloop"" ) ?", "enresult(""for loop"") ?");
   ("enresult ( ""if\slet"" ) ?", "enresult(""if let"") ?");
   ("enresult ( ( ) )", "enresult(())");
   ("enresult ( ( ) ) ?", "enresult(()) ?");
   ("enresult ( 10 ) ?", "enresult(10) ?");
   ("enresult ( 2 ) ?", "enresult(2) ?");
   ("enresult ( 20 ) ?", "enresult(20) ?");
   ("enresult ( 3 ) ?", "enresult(3) ?");
   ("enresult ( 30 ) ?", "enresult(30) ?");
   ("enresult ( [ 1 , 2 ] ) ?", "enresult([1, 2]) ?");
   ("enresult ( true ) ?", "enresult(true) ?");
   ("tag : { 0 } , expr : { 1 }", "tag: {0}, expr: {1}
");
   ("{ 0 }", "{0}
");
   ("{ }", "{}")].
Definition ends_special_macro : list (N * N * (N * N * string)) :=
  [(4, 2, (4, 8, "")); (5, 15, (5, 21, "")); (5, 35, (5, 37, "")); (5, 39, (7, 2, "")); (6, 7, (6, 10, "")); (12, 2, (12, 8, "")); (13, 2, (15, 5, "")); (13, 15, (15, 4, "")); (13, 24, (15, 3, "")); (13, 29, (15, 2, "")); (14, 13, (14, 61, "")); (14, 14, (14, 33, """tag: {}, expr: {}""")); (14, 51, (14, 60, "")); (16, 2, (16, 26, "")); (16, 15, (16, 25, """(no tag)""")); (17, 8, (17, 10, "")); (17, 21, (17, 23, "")); (17, 25, (17, 27, "")); (17, 29, (165, 2, "")); (19, 6, (19, 27, "")); (19, 19, (19, 26, """outer""")); (20, 13, (20, 34, "")); (20, 14, (20, 18, """{}""")); (20, 28, (20, 32, "")); (22, 13, (26, 6, "")); (23, 9, (23, 13, """{}""")); (24, 10, (24, 31, "")); (24, 23, (24, 30, """inner""")); (25, 17, (25, 21, "")); (29, 6, (29, 21, "")); (29, 12, (29, 20, "")); (30, 13, (82, 6, "")); (36, 10, (36, 25, "")); (36, 16, (36, 24, "")); (37, 26, (49, 10, "")); (38, 13, (38, 15, "")); (38, 19, (48, 14, "")); (39, 26, (39, 38, "")); (39, 49, (39, 51, "")); (39, 53, (39, 55, "")); (39, 57, (47, 18, "")); (40, 29, (44, 22, "")); (41, 33, (41, 37, "")); (41, 34, (41, 36, "")); (43, 35, (43, 39, "")); (43, 36, (43, 38, "")); (46, 24, (46, 28, "")); (46, 25, (46, 27, "")); (51, 10, (51, 31, "")); (51, 23, (51, 30, """outer""")); (52, 13, (59, 10, "")); (53, 14, (53, 29, "")); (53, 20, (53, 28, "")); (54, 21, (54, 23, "")); (54, 34, (54, 36, "")); (54, 38, (54, 40, "")); (54, 42, (58, 14, "")); (55, 25, (55, 29, "")); (55, 26, (55, 28, "")); (57, 20, (57, 24, "")); (57, 21, (57, 23, "")); (61, 13, (81, 10, "")); (62, 14, (62, 35, "")); (62, 27, (62, 34, """const""")); (63, 39, (72, 14, "")); (64, 18, (64, 44, "")); (64, 31, (64, 43, """inner func""")); (65, 22, (65, 24, "")); (65, 35, (65, 37, "")); (65, 39, (65, 41, "")); (65, 43, (69, 18, "")); (66, 29, (66, 33, "")); (66, 30, (66, 32, "")); (68, 29, (68, 33, "")); (68, 30, (68, 32, "")); (74, 14, (74, 29, "")); (74, 20, (74, 28, "")); (75, 21, (75, 23, "")); (75, 34, (75, 36, "")); (75, 38, (75, 40, "")); (75, 42, (80, 14, "")); (76, 18, (76, 39, "")); (76, 31, (76, 38, """inner""")); (77, 25, (77, 29, "")); (77, 26, (77, 28, "")); (79, 20, (79, 24, "")); (79, 21, (79, 23, "")); (85, 14, (85, 35, "")); (85, 27, (85, 34, """outer""")); (86, 9, (86, 38, "")); (86, 18, (86, 22, "")); (86, 33, (86, 36, "")); (88, 17, (95, 6, "")); (89, 10, (89, 33, "")); (89, 23, (89, 32, """inner 1""")); (90, 17, (90, 21, "")); (91, 10, (91, 33, "")); (91, 23, (91, 32, """inner 2""")); (92, 17, (92, 21, "")); (93, 10, (93, 33, "")); (93, 23, (93, 32, """inner 3""")); (94, 17, (94, 21, "")); (99, 35, (106, 6, "")); (100, 9, (100, 32, "")); (100, 11, (100, 29, "")); (100, 36, (105, 10, "")); (101, 14, (104, 14, "")); (103, 25, (103, 35, "")); (103, 26, (103, 30, """{}""")); (108, 6, (108, 38, "")); (108, 19, (108, 37, """stmts_with_print""")); (109, 22, (114, 6, "")); (110, 20, (110, 26, "")); (110, 28, (112, 10, "")); (111, 21, (111, 34, "")); (111, 22, (111, 33, """It's true""")); (112, 20, (112, 30, "")); (112, 21, (112, 29, """if let""")); (113, 26, (113, 34, "")); (113, 27, (113, 33, "")); (113, 36, (113, 38, "")); (113, 48, (113, 60, "")); (113, 49, (113, 59, """for loop""")); (116, 39, (123, 6, "")); (117, 9, (117, 32, "")); (117, 11, (117, 29, "")); (117, 36, (122, 10, "")); (118, 14, (121, 14, "")); (120, 25, (120, 35, "")); (120, 26, (120, 30, """{}""")); (125, 6, (125, 38, "")); (125, 19, (125, 37, """stmts_with_print""")); (126, 26, (131, 6, "")); (127, 17, (127, 27, "")); (127, 18, (127, 26, """if let""")); (127, 41, (127, 47, "")); (127, 49, (129, 10, "")); (128, 21, (128, 34, "")); (128, 22, (128, 33, """It's true""")); (130, 17, (130, 29, "")); (130, 18, (130, 28, """for loop""")); (130, 49, (130, 57, "")); (130, 50, (130, 56, "")); (130, 59, (130, 61, "")); (133, 23, (141, 6, "")); (134, 9, (134, 32, "")); (134, 11, (134, 29, "")); (134, 36, (140, 10, "")); (135, 17, (139, 14, "")); (136, 18, (138, 18, "")); (137, 25, (137, 33, "")); (143, 6, (143, 26, "")); (143, 19, (143, 25, """vecs""")); (144, 18, (147, 6, "")); (145, 17, (145, 21, "")); (145, 32, (145, 35, "")); (146, 17, (146, 21, "")); (146, 32, (146, 35, "")); (150, 11, (150, 13, "")); (155, 12, (157, 6, "")); (159, 30, (162, 7, "")); (159, 31, (162, 6, "")); (160, 9, (160, 14, """key""")); (160, 16, (160, 23, """value""")); (161, 9, (161, 16, """array""")); (161, 26, (161, 37, "")); (161, 27, (161, 36, "")); (164, 8, (164, 12, "")); (164, 9, (164, 11, "")); (167, 2, (167, 8, "")); (168, 2, (168, 31, "")); (168, 23, (168, 30, "")); (169, 22, (169, 24, "")); (169, 35, (169, 37, "")); (169, 39, (169, 41, "")); (169, 43, (177, 2, "")); (170, 17, (170, 59, "")); (170, 26, (170, 29, "")); (170, 40, (170, 43, "")); (170, 54, (170, 57, "")); (172, 13, (172, 17, "")); (172, 14, (172, 16, "")); (174, 13, (174, 38, "")); (174, 14, (174, 18, """{}""")); (174, 28, (174, 36, "")); (174, 29, (174, 35, """beep""")); (176, 8, (176, 12, "")); (176, 9, (176, 11, "")); (179, 2, (179, 8, "")); (180, 8, (180, 10, "")); (180, 11, (183, 2, "")); (181, 9, (181, 11, "")); (181, 22, (181, 24, "")); (182, 23, (182, 25, "")); (182, 36, (182, 38, ""))].
Definition su_special_macro : setup := mk_setup (mk_features false false true false false "hooq") doc_special_macro texts_special_macro strs_special_macro [] ends_special_macro "macro".
Definition it_special_macro_0 : item := let S := at_ "<hooq_root>/tests/special/macro.rs" in
  (IFn [] [] (mk_sig "enresult" (RetPath (mk_path false [mk_seg "Result" [O S "<" 5 31; I S "T" 5 32; O S "," 5 33; G S Parenth [] 5 35; O S ">" 5 37] (S 5 25)])) [I S "fn" 5 1; I S "enresult" 5 4; O S "<" 5 12; I S "T" 5 13; O S ">" 5 14; G S Parenth [I S "t" 5 16; O S ":" 5 17; I S "T" 5 19] 5 15; O S "-" 5 22; O S ">" 5 23; I S "Result" 5 25; O S "<" 5 31; I S "T" 5 32; O S "," 5 33; G S Parenth [] 5 35; O S ">" 5 37]) (S 5 39) [(SExpr (ECall [] (EPath [] (mk_path false [mk_seg "Ok" [] (S 6 5)])) (S 6 7) [(EPath [] (mk_path false [mk_seg "t" [] (S 6 8)]))] []) None)]).
Definition args_special_macro_0 : list meta := let S := at_ "<hooq_root>/tests/special/macro.rs" in [].
Definition rec_special_macro_0 : list string :=
  ["fn enresult < T > ( t : T ) - > Result < T , ( ) > { Ok ( t ) }"].
Definition it_special_macro_2 : item := let S := at_ "<hooq_root>/tests/special/macro.rs" in
  (IFn [mk_attr false (S 168 1) (MList (mk_path false [mk_seg "hooq" [] (S 168 3); mk_seg "hook_in_macros" [] (S 168 9)]) Parenth [I S "false" 168 24] (S 168 23))] [] (mk_sig "no_hooks_to_macros" (RetPath (mk_path false [mk_seg "Result" [O S "<" 169 34; G S Parenth [] 169 35; O S "," 169 37; G S Parenth [] 169 39; O S ">" 169 41] (S 169 28)])) [I S "fn" 169 1; I S "no_hooks_to_macros" 169 4; G S Parenth [] 169 22; O S "-" 169 25; O S ">" 169 26; I S "Result" 169 28; O S "<" 169 34; G S Parenth [] 169 35; O S "," 169 37; G S Parenth [] 169 39; O S ">" 169 41]) (S 169 43) [(SLocalInit [] [I S "let" 170 5; I S "_" 170 9; O S "=" 170 11] (EMacro [] (Mac (mk_path false [mk_seg "vec" [] (S 170 13)]) Bracket (S 170 17) [I S "enresult" 170 18; G S Parenth [L S (LOther "1") 170 27] 170 26; O S "?" 170 29; O S "," 170 30; I S "enresult" 170 32; G S Parenth [L S (LOther "2") 170 41] 170 40; O S "?" 170 43; O S "," 170 44; I S "enresult" 170 46; G S Parenth [L S (LOther "3") 170 55] 170 54; O S "?" 170 57] (Some [VExpr (ETry [] (ECall [] (EPath [] (mk_path false [mk_seg "enresult" [] (S 170 18)])) (S 170 26) [(ELit [] (LOther "1") (S 170 27))] []) (S 170 29)) [O S "," 170 30]; VExpr (ETry [] (ECall [] (EPath [] (mk_path false [mk_seg "enresult" [] (S 170 32)])) (S 170 40) [(ELit [] (LOther "2") (S 170 41))] []) (S 170 43)) [O S "," 170 44]; VExpr (ETry [] (ECall [] (EPath [] (mk_path false [mk_seg "enresult" [] (S 170 46)])) (S 170 54) [(ELit [] (LOther "3") (S 170 55))] []) (S 170 57)) []]))) [] None [O S ";" 170 59]); (SExpr (ETry [] (ECall [] (EPath [] (mk_path false [mk_seg "enresult" [] (S 172 5)])) (S 172 13) [(ETuple [] (S 172 14) [] [])] []) (S 172 17)) (Some (S 172 18))); (SMacro [] (Mac (mk_path false [mk_seg "println" [] (S 174 5)]) Parenth (S 174 13) [L S (LStr "{}") 174 14; O S "," 174 18; I S "enresult" 174 20; G S Parenth [L S (LStr "beep") 174 29] 174 28; O S "?" 174 36] (Some [VExpr (ELit [] (LStr "{}") (S 174 14)) [O S "," 174 18]; VExpr (ETry [] (ECall [] (EPath [] (mk_path false [mk_seg "enresult" [] (S 174 20)])) (S 174 28) [(ELit [] (LStr "beep") (S 174 29))] []) (S 174 36)) []])) [O S ";" 174 38]); (SExpr (ECall [] (EPath [] (mk_path false [mk_seg "Err" [] (S 176 5)])) (S 176 8) [(ETuple [] (S 176 9) [] [])] []) None)]).
Definition args_special_macro_2 : list meta := let S := at_ "<hooq_root>/tests/special/macro.rs" in [].
Definition rec_special_macro_2 : list string :=
  ["fn no_hooks_to_macros ( ) - > Result < ( ) , ( ) > { let _ = < [ _ ] > : : into_vec ( : : alloc : : boxed : : box_new ( [ enresult ( 1 ) ? , enresult";
   "( 2 ) ? , enresult ( 3 ) ? ] ) ) ; enresult ( ( ) ) . inspect_err ( | e | { let path = ""<hooq_root>/tests/special/macro.rs"" ; let line = 172usize ;";
   "let col = 17usize ; let expr = ""\s172>\s\s\s\senresult(())?\n\s\s\s\s|"" ; { : : std : : io : : _eprint ( format_args ! ( ""[{0}:{1}:{2}]\s{3:?}\n{4}\n""";
   ", path , line , col , e , expr ) ) ; } ; } ) ? ; { : : std : : io : : _print ( format_args ! ( ""{0}\n"" , enresult ( ""beep"" ) ? ) ) ; } ; Err ( ( ) ) .";
   "inspect_err ( | e | { let path = ""<hooq_root>/tests/special/macro.rs"" ; let line = 176usize ; let col = 5usize ; let expr =";
   """\s176>\s\s\s\sErr(())\n\s\s\s\s|"" ; { : : std : : io : : _eprint ( format_args ! ( ""[{0}:{1}:{2}]\s{3:?}\n{4}\n"" , path , line , col , e , expr ) ) ;";
   "} ; } ) }"].
(** enresult *)
Example recorded_special_macro_0 : expanded su_special_macro args_special_macro_0 it_special_macro_0 = words rec_special_macro_0.
Proof. vm_compute. reflexivity. Qed.
(** no_hooks_to_macros *)
Example recorded_special_macro_2 : expanded su_special_macro args_special_macro_2 it_special_macro_2 = words rec_special_macro_2.
Proof. vm_compute. reflexivity. Qed.
(** ** hooq-macros/tests/special/method_replace/src/method_replace.rs *)
Definition doc_special_method_replace_method_replace : list (string * ftable) := [("custom", FTable (mk_tcore [] (Some "{
    println!(""checkpoint: {}"", stringify!($source));

    $expr
}") None None None None None []) [])].
Definition texts_special_method_replace_method_replace : list (string * list tt) := let S := at_ "" in [("{
    println!(""checkpoint: {}"", stringify!($source));

    $expr
}", [G S Brace [I S "println" 2 5; O S "!" 2 12; G S Parenth [L S (LStr "checkpoint: {}") 2 14; O S "," 2 30; I S "stringify" 2 32; O S "!" 2 41; G S Parenth [O S "$" 2 43; I S "source" 2 44] 2 42] 2 13; O S ";" 2 52; O S "$" 4 5; I S "expr" 4 6] 1 1])].
Definition strs_special_method_replace_method_replace : list (string * string) :=
  [].
Definition ends_special_method_replace_method_replace : list (N * N * (N * N * string)) :=
  [(1, 3, (1, 35, "")); (1, 9, (1, 34, "")); (5, 2, (5, 8, "")); (6, 15, (6, 23, "")); (6, 37, (6, 39, "")); (6, 41, (8, 2, "")); (7, 7, (7, 12, "")); (10, 2, (10, 8, "")); (11, 2, (11, 36, "")); (11, 15, (11, 35, "")); (11, 18, (11, 34, "")); (11, 31, (11, 33, "")); (12, 19, (12, 21, "")); (12, 32, (12, 34, "")); (12, 36, (12, 38, "")); (12, 40, (20, 2, "")); (13, 16, (13, 23, "")); (13, 25, (15, 6, "")); (14, 22, (14, 24, "")); (14, 26, (14, 28, "")); (14, 29, (14, 33, "")); (14, 30, (14, 32, "")); (17, 13, (17, 17, "")); (17, 14, (17, 16, "")); (19, 7, (19, 11, "")); (19, 8, (19, 10, "")); (22, 2, (22, 8, "")); (23, 2, (23, 24, "")); (23, 15, (23, 23, "")); (23, 18, (23, 22, "")); (23, 19, (23, 21, "")); (24, 23, (24, 25, "")); (24, 36, (24, 38, "")); (24, 40, (24, 42, "")); (24, 44, (28, 2, "")); (25, 13, (25, 17, "")); (25, 14, (25, 16, "")); (27, 7, (27, 11, "")); (27, 8, (27, 10, "")); (30, 2, (30, 16, "")); (30, 7, (30, 15, "")); (31, 23, (31, 25, "")); (31, 36, (31, 38, "")); (31, 40, (31, 42, "")); (31, 44, (39, 2, "")); (32, 16, (32, 23, "")); (32, 25, (34, 6, "")); (33, 22, (33, 24, "")); (33, 26, (33, 28, "")); (33, 29, (33, 33, "")); (33, 30, (33, 32, "")); (36, 13, (36, 17, "")); (36, 14, (36, 16, "")); (38, 7, (38, 11, "")); (38, 8, (38, 10, ""))].
Definition su_special_method_replace_method_replace : setup := mk_setup (mk_features false false false false false "hooq") doc_special_method_replace_method_replace texts_special_method_replace_method_replace strs_special_method_replace_method_replace [] ends_special_method_replace_method_replace "method_replace".
Definition it_special_method_replace_method_replace_0 : item := let S := at_ "hooq-macros/tests/special/method_replace/src/method_replace.rs" in
  (IFn [] [] (mk_sig "enresult" (RetPath (mk_path false [mk_seg "Result" [O S "<" 6 33; I S "T" 6 34; O S "," 6 35; G S Parenth [] 6 37; O S ">" 6 39] (S 6 27)])) [I S "fn" 6 1; I S "enresult" 6 4; O S "<" 6 12; I S "T" 6 13; O S ">" 6 14; G S Parenth [I S "val" 6 16; O S ":" 6 19; I S "T" 6 21] 6 15; O S "-" 6 24; O S ">" 6 25; I S "Result" 6 27; O S "<" 6 33; I S "T" 6 34; O S "," 6 35; G S Parenth [] 6 37; O S ">" 6 39]) (S 6 41) [(SExpr (ECall [] (EPath [] (mk_path false [mk_seg "Ok" [] (S 7 5)])) (S 7 7) [(EPath [] (mk_path false [mk_seg "val" [] (S 7 8)]))] []) None)]).
Definition args_special_method_replace_method_replace_0 : list meta := let S := at_ "hooq-macros/tests/special/method_replace/src/method_replace.rs" in [].
Definition rec_special_method_replace_method_replace_0 : list string :=
  ["fn enresult < T > ( val : T ) - > Result < T , ( ) > { Ok ( val ) }"].
Definition it_special_method_replace_method_replace_1 : item := let S := at_ "hooq-macros/tests/special/method_replace/src/method_replace.rs" in
  (IFn [mk_attr false (S 11 1) (MList (mk_path false [mk_seg "hooq" [] (S 11 3); mk_seg "method" [] (S 11 9)]) Parenth [I S "Ok" 11 16; G S Parenth [O S "$" 11 19; I S "expr" 11 20; O S "." 11 24; I S "unwrap" 11 25; G S Parenth [] 11 31] 11 18] (S 11 15))] [I S "pub" 12 1] (mk_sig "func_unwrap" (RetPath (mk_path false [mk_seg "Result" [O S "<" 12 31; G S Parenth [] 12 32; O S "," 12 34; G S Parenth [] 12 36; O S ">" 12 38] (S 12 25)])) [I S "fn" 12 5; I S "func_unwrap" 12 8; G S Parenth [] 12 19; O S "-" 12 22; O S ">" 12 23; I S "Result" 12 25; O S "<" 12 31; G S Parenth [] 12 32; O S "," 12 34; G S Parenth [] 12 36; O S ">" 12 38]) (S 12 40) [(SExpr (EIf [] [I S "if" 13 5] (ETry [] (ECall [] (EPath [] (mk_path false [mk_seg "enresult" [] (S 13 8)])) (S 13 16) [(EPath [] (mk_path false [mk_seg "false" [] (S 13 17)]))] []) (S 13 23)) (S 13 25) [(SExpr (EReturn [] (S 14 9) (Some (ECall [] (EPath [] (mk_path false [mk_seg "Err" [O S ":" 14 19; O S ":" 14 20; O S "<" 14 21; G S Parenth [] 14 22; O S "," 14 24; G S Parenth [] 14 26; O S ">" 14 28] (S 14 16)])) (S 14 29) [(ETuple [] (S 14 30) [] [])] []))) (Some (S 14 33)))] [] None) None); (SExpr (ETry [] (ECall [] (EPath [] (mk_path false [mk_seg "enresult" [] (S 17 5)])) (S 17 13) [(ETuple [] (S 17 14) [] [])] []) (S 17 17)) (Some (S 17 18))); (SExpr (ECall [] (EPath [] (mk_path false [mk_seg "Ok" [] (S 19 5)])) (S 19 7) [(ETuple [] (S 19 8) [] [])] []) None)]).
Definition args_special_method_replace_method_replace_1 : list meta := let S := at_ "hooq-macros/tests/special/method_replace/src/method_replace.rs" in [].
Definition rec_special_method_replace_method_replace_1 : list string :=
  ["pub fn func_unwrap ( ) - > Result < ( ) , ( ) > { if Ok ( enresult ( false ) . unwrap ( ) ) ? { return Ok ( Err : : < ( ) , ( ) > ( ( ) ) . unwrap ( )";
   ") ; } Ok ( enresult ( ( ) ) . unwrap ( ) ) ? ; Ok ( ( ) ) }"].
Definition it_special_method_replace_method_replace_2 : item := let S := at_ "hooq-macros/tests/special/method_replace/src/method_replace.rs" in
  (IFn [mk_attr false (S 23 1) (MList (mk_path false [mk_seg "hooq" [] (S 23 3); mk_seg "method" [] (S 23 9)]) Parenth [I S "Ok" 23 16; G S Parenth [G S Parenth [] 23 19] 23 18] (S 23 15))] [I S "pub" 24 1] (mk_sig "func_overridden" (RetPath (mk_path false [mk_seg "Result" [O S "<" 24 35; G S Parenth [] 24 36; O S "," 24 38; G S Parenth [] 24 40; O S ">" 24 42] (S 24 29)])) [I S "fn" 24 5; I S "func_overridden" 24 8; G S Parenth [] 24 23; O S "-" 24 26; O S ">" 24 27; I S "Result" 24 29; O S "<" 24 35; G S Parenth [] 24 36; O S "," 24 38; G S Parenth [] 24 40; O S ">" 24 42]) (S 24 44) [(SExpr (ETry [] (ECall [] (EPath [] (mk_path false [mk_seg "enresult" [] (S 25 5)])) (S 25 13) [(ETuple [] (S 25 14) [] [])] []) (S 25 17)) (Some (S 25 18))); (SExpr (ECall [] (EPath [] (mk_path false [mk_seg "Ok" [] (S 27 5)])) (S 27 7) [(ETuple [] (S 27 8) [] [])] []) None)]).
Definition args_special_method_replace_method_replace_2 : list meta := let S := at_ "hooq-macros/tests/special/method_replace/src/method_replace.rs" in [].
Definition rec_special_method_replace_method_replace_2 : list string :=
  ["pub fn func_overridden ( ) - > Result < ( ) , ( ) > { Ok ( ( ) ) ? ; Ok ( ( ) ) }"].
(** enresult *)
Example recorded_special_method_replace_method_replace_0 : expanded su_special_method_replace_method_replace args_special_method_replace_method_replace_0 it_special_method_replace_method_replace_0 = words rec_special_method_replace_method_replace_0.
Proof. vm_compute. reflexivity. Qed.
(** func_unwrap *)
Example recorded_special_method_replace_method_replace_1 : expanded su_special_method_replace_method_replace args_special_method_replace_method_replace_1 it_special_method_replace_method_replace_1 = words rec_special_method_replace_method_replace_1.
Proof. vm_compute. reflexivity. Qed.
(** func_overridden *)
Example recorded_special_method_replace_method_replace_2 : expanded su_special_method_replace_method_replace args_special_method_replace_method_replace_2 it_special_method_replace_method_replace_2 = words rec_special_method_replace_method_replace_2.
Proof. vm_compute. reflexivity. Qed.
(** ** hooq-macros/tests/special/nested.rs *)
Definition doc_special_nested : list (string * ftable) := [].
Definition texts_special_nested : list (string * list tt) := let S := at_ "" in [].
Definition strs_special_nested : list (string * string) :=
  [("5 > Err ( ( ) ) |", "   5>    Err(())
    |");
   ("< hooq_root > / tests / special / nested . rs", "<hooq_root>/tests/special/nested.rs");
   ("Err ( ( ) )", "Err(())");
   ("[ { 0 } : { 1 } : { 2 } ] { 3 : ? } { 4 }", "[{0}:{1}:{2}] {3:?}
{4}
");
   ("func ( ( ) ) ?", "func(()) ?");
   ("func ( func ( ( ) ) ? ) ?", "func(func(()) ?) ?");
   ("func ( func ( func ( ( ) ) ? ) ? ) ?", "func(func(func(()) ?) ?) ?");
   ("func ( func ( func ( func ( ( ) ) ? ) ? ) ? ) ?", "func(func(func(func(()) ?) ?) ?) ?");
   ("nested @ path : { 0 } , line : { 1 } expr : { 2 }", "nested @
path: {0},
line: {1}
expr: {2}
")].
Definition ends_special_nested : list (N * N * (N * N * string)) :=
  [(3, 2, (3, 8, "")); (4, 8, (4, 15, "")); (4, 12, (4, 14, "")); (4, 26, (4, 28, "")); (4, 30, (4, 32, "")); (4, 34, (6, 2, "")); (5, 8, (5, 12, "")); (5, 9, (5, 11, "")); (8, 2, (8, 8, "")); (9, 2, (18, 5, "")); (9, 15, (18, 4, "")); (9, 24, (18, 3, "")); (9, 29, (18, 2, "")); (12, 26, (12, 35, "")); (14, 21, (17, 15, "")); (14, 22, (17, 14, """nested @
path: {path},
line: {line}
expr: {expr}""")); (19, 10, (19, 12, "")); (19, 23, (19, 25, "")); (19, 27, (19, 29, "")); (19, 31, (22, 2, "")); (20, 9, (20, 34, "")); (20, 14, (20, 32, "")); (20, 19, (20, 30, "")); (20, 24, (20, 28, "")); (20, 25, (20, 27, "")); (21, 8, (21, 12, "")); (21, 9, (21, 11, "")); (24, 2, (24, 8, "")); (25, 8, (25, 10, "")); (25, 11, (27, 2, "")); (26, 11, (26, 13, "")); (26, 24, (26, 26, ""))].
Definition su_special_nested : setup := mk_setup (mk_features false false true false false "hooq") doc_special_nested texts_special_nested strs_special_nested [] ends_special_nested "nested".
Definition it_special_nested_0 : item := let S := at_ "<hooq_root>/tests/special/nested.rs" in
  (IFn [] [] (mk_sig "func" (RetPath (mk_path false [mk_seg "Result" [O S "<" 4 25; G S Parenth [] 4 26; O S "," 4 28; G S Parenth [] 4 30; O S ">" 4 32] (S 4 19)])) [I S "fn" 4 1; I S "func" 4 4; G S Parenth [I S "_" 4 9; O S ":" 4 10; G S Parenth [] 4 12] 4 8; O S "-" 4 16; O S ">" 4 17; I S "Result" 4 19; O S "<" 4 25; G S Parenth [] 4 26; O S "," 4 28; G S Parenth [] 4 30; O S ">" 4 32]) (S 4 34) [(SExpr (ECall [] (EPath [] (mk_path false [mk_seg "Err" [] (S 5 5)])) (S 5 8) [(ETuple [] (S 5 9) [] [])] []) None)]).
Definition args_special_nested_0 : list meta := let S := at_ "<hooq_root>/tests/special/nested.rs" in [].
Definition rec_special_nested_0 : list string :=
  ["fn func ( _ : ( ) ) - > Result < ( ) , ( ) > { Err ( ( ) ) . inspect_err ( | e | { let path = ""<hooq_root>/tests/special/nested.rs"" ; let line =";
   "5usize ; let col = 5usize ; let expr = ""\s\s\s5>\s\s\s\sErr(())\n\s\s\s\s|"" ; { : : std : : io : : _eprint ( format_args ! (";
   """[{0}:{1}:{2}]\s{3:?}\n{4}\n"" , path , line , col , e , expr ) ) ; } ; } ) }"].
Definition it_special_nested_1 : item := let S := at_ "<hooq_root>/tests/special/nested.rs" in
  (IFn [mk_attr false (S 9 1) (MList (mk_path false [mk_seg "hooq" [] (S 9 3); mk_seg "method" [] (S 9 9)]) Parenth [O S "." 9 16; I S "inspect" 9 17; G S Parenth [O S "|" 9 25; I S "_" 9 26; O S "|" 9 27; G S Brace [I S "let" 10 5; I S "path" 10 9; O S "=" 10 14; O S "$" 10 16; I S "path" 10 17; O S ";" 10 21; I S "let" 11 5; I S "line" 11 9; O S "=" 11 14; O S "$" 11 16; I S "line" 11 17; O S ";" 11 21; I S "let" 12 5; I S "expr" 12 9; O S "=" 12 14; I S "stringify" 12 16; O S "!" 12 25; G S Parenth [O S "$" 12 27; I S "source" 12 28] 12 26; O S ";" 12 35; O S ":" 14 5; O S ":" 14 6; I S "std" 14 7; O S ":" 14 10; O S ":" 14 11; I S "eprintln" 14 12; O S "!" 14 20; G S Parenth [L S (LStr "nested @
path: {path},
line: {line}
expr: {expr}") 14 22] 14 21; O S ";" 17 15] 9 29] 9 24] (S 9 15))] [] (mk_sig "nested" (RetPath (mk_path false [mk_seg "Result" [O S "<" 19 22; G S Parenth [] 19 23; O S "," 19 25; G S Parenth [] 19 27; O S ">" 19 29] (S 19 16)])) [I S "fn" 19 1; I S "nested" 19 4; G S Parenth [] 19 10; O S "-" 19 13; O S ">" 19 14; I S "Result" 19 16; O S "<" 19 22; G S Parenth [] 19 23; O S "," 19 25; G S Parenth [] 19 27; O S ">" 19 29]) (S 19 31) [(SExpr (ETry [] (ECall [] (EPath [] (mk_path false [mk_seg "func" [] (S 20 5)])) (S 20 9) [(ETry [] (ECall [] (EPath [] (mk_path false [mk_seg "func" [] (S 20 10)])) (S 20 14) [(ETry [] (ECall [] (EPath [] (mk_path false [mk_seg "func" [] (S 20 15)])) (S 20 19) [(ETry [] (ECall [] (EPath [] (mk_path false [mk_seg "func" [] (S 20 20)])) (S 20 24) [(ETuple [] (S 20 25) [] [])] []) (S 20 28))] []) (S 20 30))] []) (S 20 32))] []) (S 20 34)) (Some (S 20 35))); (SExpr (ECall [] (EPath [] (mk_path false [mk_seg "Err" [] (S 21 5)])) (S 21 8) [(ETuple [] (S 21 9) [] [])] []) None)]).
Definition args_special_nested_1 : list meta := let S := at_ "<hooq_root>/tests/special/nested.rs" in [].
Definition rec_special_nested_1 : list string :=
  ["fn nested ( ) - > Result < ( ) , ( ) > { func ( func ( func ( func ( ( ) ) . inspect ( | _ | { let path = ""<hooq_root>/tests/special/nested.rs"" ; let";
   "line = 20usize ; let expr = ""func(())\s?"" ; { : : std : : io : : _eprint ( format_args ! ( ""nested\s@\npath:\s{0},\nline:\s{1}\nexpr:\s{2}\n"" , path ,";
   "line , expr ) ) ; } ; } ) ? ) . inspect ( | _ | { let path = ""<hooq_root>/tests/special/nested.rs"" ; let line = 20usize ; let expr =";
   """func(func(())\s?)\s?"" ; { : : std : : io : : _eprint ( format_args ! ( ""nested\s@\npath:\s{0},\nline:\s{1}\nexpr:\s{2}\n"" , path , line , expr ) ) ;";
   "} ; } ) ? ) . inspect ( | _ | { let path = ""<hooq_root>/tests/special/nested.rs"" ; let line = 20usize ; let expr = ""func(func(func(())\s?)\s?)\s?"" ; {";
   ": : std : : io : : _eprint ( format_args ! ( ""nested\s@\npath:\s{0},\nline:\s{1}\nexpr:\s{2}\n"" , path , line , expr ) ) ; } ; } ) ? ) . inspect ( | _";
   "| { let path = ""<hooq_root>/tests/special/nested.rs"" ; let line = 20usize ; let expr = ""func(func(func(func(())\s?)\s?)\s?)\s?"" ; { : : std : : io : :";
   "_eprint ( format_args ! ( ""nested\s@\npath:\s{0},\nline:\s{1}\nexpr:\s{2}\n"" , path , line , expr ) ) ; } ; } ) ? ; Err ( ( ) ) . inspect ( | _ | {";
   "let path = ""<hooq_root>/tests/special/nested.rs"" ; let line = 21usize ; let expr = ""Err(())"" ; { : : std : : io : : _eprint ( format_args ! (";
   """nested\s@\npath:\s{0},\nline:\s{1}\nexpr:\s{2}\n"" , path , line , expr ) ) ; } ; } ) }"].
(** func *)
Example recorded_special_nested_0 : expanded su_special_nested args_special_nested_0 it_special_nested_0 = words rec_special_nested_0.
Proof. vm_compute. reflexivity. Qed.
(** nested *)
Example recorded_special_nested_1 : expanded su_special_nested args_special_nested_1 it_special_nested_1 = words rec_special_nested_1.
Proof. vm_compute. reflexivity. Qed.
(** ** hooq-macros/tests/special/other-preset-flavors/hooq-anyhow/src/hooq_anyhow.rs *)
Definition doc_special_other_preset_flavors_hooq_anyhow_hooq_anyhow : list (string * ftable) := [].
Definition texts_special_other_preset_flavors_hooq_anyhow_hooq_anyhow : list (string * list tt) := let S := at_ "" in [].
Definition strs_special_other_preset_flavors_hooq_anyhow_hooq_anyhow : list (string * string) :=
  [("10 > a ( ) ? |", "  10>    a()?
    |");
   ("12 > Err ( anyhow : : anyhow ! ( ""error!"" ) ) |", "  12>    Err(anyhow::anyhow!(""error!""))
    |");
   ("17 > b ( ) ? |", "  17>    b()?
    |");
   ("19 > Err ( anyhow : : anyhow ! ( ""error!"" ) ) |", "  19>    Err(anyhow::anyhow!(""error!""))
    |");
   ("5 > Err ( anyhow : : anyhow ! ( ""error!"" ) ) |", "   5>    Err(anyhow::anyhow!(""error!""))
    |");
   ("< hooq_root > / src / hooq_anyhow . rs", "<hooq_root>/src/hooq_anyhow.rs");
   ("[ { 0 } : { 1 } : { 2 } ] { 3 }", "[{0}:{1}:{2}]
{3}");
   ("error !", "error!")].
Definition ends_special_other_preset_flavors_hooq_anyhow_hooq_anyhow : list (N * N * (N * N * string)) :=
  [(3, 2, (3, 16, "")); (3, 7, (3, 15, "")); (4, 9, (4, 11, "")); (4, 30, (4, 32, "")); (4, 34, (6, 2, "")); (5, 8, (5, 35, "")); (5, 24, (5, 34, "")); (5, 25, (5, 33, """error!""")); (8, 2, (8, 16, "")); (8, 7, (8, 15, "")); (9, 9, (9, 11, "")); (9, 30, (9, 32, "")); (9, 34, (13, 2, "")); (10, 6, (10, 8, "")); (12, 8, (12, 35, "")); (12, 24, (12, 34, "")); (12, 25, (12, 33, """error!""")); (15, 2, (15, 16, "")); (15, 7, (15, 15, "")); (16, 9, (16, 11, "")); (16, 30, (16, 32, "")); (16, 34, (20, 2, "")); (17, 6, (17, 8, "")); (19, 8, (19, 35, "")); (19, 24, (19, 34, "")); (19, 25, (19, 33, """error!"""))].
Definition su_special_other_preset_flavors_hooq_anyhow_hooq_anyhow : setup := mk_setup (mk_features false false true false false "hooq") doc_special_other_preset_flavors_hooq_anyhow_hooq_anyhow texts_special_other_preset_flavors_hooq_anyhow_hooq_anyhow strs_special_other_preset_flavors_hooq_anyhow_hooq_anyhow [] ends_special_other_preset_flavors_hooq_anyhow_hooq_anyhow "hooq_anyhow".
Definition it_special_other_preset_flavors_hooq_anyhow_hooq_anyhow_0 : item := let S := at_ "<hooq_root>/src/hooq_anyhow.rs" in
  (IFn [] [I S "pub" 4 1] (mk_sig "a" (RetPath (mk_path false [mk_seg "anyhow" [] (S 4 15); mk_seg "Result" [O S "<" 4 29; G S Parenth [] 4 30; O S ">" 4 32] (S 4 23)])) [I S "fn" 4 5; I S "a" 4 8; G S Parenth [] 4 9; O S "-" 4 12; O S ">" 4 13; I S "anyhow" 4 15; O S ":" 4 21; O S ":" 4 22; I S "Result" 4 23; O S "<" 4 29; G S Parenth [] 4 30; O S ">" 4 32]) (S 4 34) [(SExpr (ECall [] (EPath [] (mk_path false [mk_seg "Err" [] (S 5 5)])) (S 5 8) [(EMacro [] (Mac (mk_path false [mk_seg "anyhow" [] (S 5 9); mk_seg "anyhow" [] (S 5 17)]) Parenth (S 5 24) [L S (LStr "error!") 5 25] (Some [VExpr (ELit [] (LStr "error!") (S 5 25)) []])))] []) None)]).
Definition args_special_other_preset_flavors_hooq_anyhow_hooq_anyhow_0 : list meta := let S := at_ "<hooq_root>/src/hooq_anyhow.rs" in [(MPath (mk_path false [mk_seg "anyhow" [] (S 3 8)]))].
Definition rec_special_other_preset_flavors_hooq_anyhow_hooq_anyhow_0 : list string :=
  ["# [ allow ( unused ) ] use : : anyhow : : Context as _ ; pub fn a ( ) - > anyhow : : Result < ( ) > { Err ( : : anyhow : : __private : : must_use ( {";
   "let error = : : anyhow : : __private : : format_err ( format_args ! ( ""error!"" ) ) ; error } ) ) . with_context ( | | { let path =";
   """<hooq_root>/src/hooq_anyhow.rs"" ; let line = 5usize ; let col = 5usize ; let expr = ""\s\s\s5>\s\s\s\sErr(anyhow::anyhow!(\""error!\""))\n\s\s\s\s|"" ; :";
   ": alloc : : __export : : must_use ( { : : alloc : : fmt : : format ( format_args ! ( ""[{0}:{1}:{2}]\n{3}"" , path , line , col , expr ) ) } ) } ) }"].
Definition it_special_other_preset_flavors_hooq_anyhow_hooq_anyhow_1 : item := let S := at_ "<hooq_root>/src/hooq_anyhow.rs" in
  (IFn [] [I S "pub" 9 1] (mk_sig "b" (RetPath (mk_path false [mk_seg "anyhow" [] (S 9 15); mk_seg "Result" [O S "<" 9 29; G S Parenth [] 9 30; O S ">" 9 32] (S 9 23)])) [I S "fn" 9 5; I S "b" 9 8; G S Parenth [] 9 9; O S "-" 9 12; O S ">" 9 13; I S "anyhow" 9 15; O S ":" 9 21; O S ":" 9 22; I S "Result" 9 23; O S "<" 9 29; G S Parenth [] 9 30; O S ">" 9 32]) (S 9 34) [(SExpr (ETry [] (ECall [] (EPath [] (mk_path false [mk_seg "a" [] (S 10 5)])) (S 10 6) [] []) (S 10 8)) (Some (S 10 9))); (SExpr (ECall [] (EPath [] (mk_path false [mk_seg "Err" [] (S 12 5)])) (S 12 8) [(EMacro [] (Mac (mk_path false [mk_seg "anyhow" [] (S 12 9); mk_seg "anyhow" [] (S 12 17)]) Parenth (S 12 24) [L S (LStr "error!") 12 25] (Some [VExpr (ELit [] (LStr "error!") (S 12 25)) []])))] []) None)]).
Definition args_special_other_preset_flavors_hooq_anyhow_hooq_anyhow_1 : list meta := let S := at_ "<hooq_root>/src/hooq_anyhow.rs" in [(MPath (mk_path false [mk_seg "anyhow" [] (S 8 8)]))].
Definition rec_special_other_preset_flavors_hooq_anyhow_hooq_anyhow_1 : list string :=
  ["# [ allow ( unused ) ] use : : anyhow : : Context as _ ; pub fn b ( ) - > anyhow : : Result < ( ) > { a ( ) . with_context ( | | { let path =";
   """<hooq_root>/src/hooq_anyhow.rs"" ; let line = 10usize ; let col = 8usize ; let expr = ""\s\s10>\s\s\s\sa()?\n\s\s\s\s|"" ; : : alloc : : __export : :";
   "must_use ( { : : alloc : : fmt : : format ( format_args ! ( ""[{0}:{1}:{2}]\n{3}"" , path , line , col , expr ) ) } ) } ) ? ; Err ( : : anyhow : :";
   "__private : : must_use ( { let error = : : anyhow : : __private : : format_err ( format_args ! ( ""error!"" ) ) ; error } ) ) . with_context ( | | { let";
   "path = ""<hooq_root>/src/hooq_anyhow.rs"" ; let line = 12usize ; let col = 5usize ; let expr =";
   """\s\s12>\s\s\s\sErr(anyhow::anyhow!(\""error!\""))\n\s\s\s\s|"" ; : : alloc : : __export : : must_use ( { : : alloc : : fmt : : format ( format_args ! (";
   """[{0}:{1}:{2}]\n{3}"" , path , line , col , expr ) ) } ) } ) }"].
Definition it_special_other_preset_flavors_hooq_anyhow_hooq_anyhow_2 : item := let S := at_ "<hooq_root>/src/hooq_anyhow.rs" in
  (IFn [] [I S "pub" 16 1] (mk_sig "c" (RetPath (mk_path false [mk_seg "anyhow" [] (S 16 15); mk_seg "Result" [O S "<" 16 29; G S Parenth [] 16 30; O S ">" 16 32] (S 16 23)])) [I S "fn" 16 5; I S "c" 16 8; G S Parenth [] 16 9; O S "-" 16 12; O S ">" 16 13; I S "anyhow" 16 15; O S ":" 16 21; O S ":" 16 22; I S "Result" 16 23; O S "<" 16 29; G S Parenth [] 16 30; O S ">" 16 32]) (S 16 34) [(SExpr (ETry [] (ECall [] (EPath [] (mk_path false [mk_seg "b" [] (S 17 5)])) (S 17 6) [] []) (S 17 8)) (Some (S 17 9))); (SExpr (ECall [] (EPath [] (mk_path false [mk_seg "Err" [] (S 19 5)])) (S 19 8) [(EMacro [] (Mac (mk_path false [mk_seg "anyhow" [] (S 19 9); mk_seg "anyhow" [] (S 19 17)]) Parenth (S 19 24) [L S (LStr "error!") 19 25] (Some [VExpr (ELit [] (LStr "error!") (S 19 25)) []])))] []) None)]).
Definition args_special_other_preset_flavors_hooq_anyhow_hooq_anyhow_2 : list meta := let S := at_ "<hooq_root>/src/hooq_anyhow.rs" in [(MPath (mk_path false [mk_seg "anyhow" [] (S 15 8)]))].
Definition rec_special_other_preset_flavors_hooq_anyhow_hooq_anyhow_2 : list string :=
  ["# [ allow ( unused ) ] use : : anyhow : : Context as _ ; pub fn c ( ) - > anyhow : : Result < ( ) > { b ( ) . with_context ( | | { let path =";
   """<hooq_root>/src/hooq_anyhow.rs"" ; let line = 17usize ; let col = 8usize ; let expr = ""\s\s17>\s\s\s\sb()?\n\s\s\s\s|"" ; : : alloc : : __export : :";
   "must_use ( { : : alloc : : fmt : : format ( format_args ! ( ""[{0}:{1}:{2}]\n{3}"" , path , line , col , expr ) ) } ) } ) ? ; Err ( : : anyhow : :";
   "__private : : must_use ( { let error = : : anyhow : : __private : : format_err ( format_args ! ( ""error!"" ) ) ; error } ) ) . with_context ( | | { let";
   "path = ""<hooq_root>/src/hooq_anyhow.rs"" ; let line = 19usize ; let col = 5usize ; let expr =";
   """\s\s19>\s\s\s\sErr(anyhow::anyhow!(\""error!\""))\n\s\s\s\s|"" ; : : alloc : : __export : : must_use ( { : : alloc : : fmt : : format ( format_args ! (";
   """[{0}:{1}:{2}]\n{3}"" , path , line , col , expr ) ) } ) } ) }"].
(** a *)
Example recorded_special_other_preset_flavors_hooq_anyhow_hooq_anyhow_0 : expanded su_special_other_preset_flavors_hooq_anyhow_hooq_anyhow args_special_other_preset_flavors_hooq_anyhow_hooq_anyhow_0 it_special_other_preset_flavors_hooq_anyhow_hooq_anyhow_0 = words rec_special_other_preset_flavors_hooq_anyhow_hooq_anyhow_0.
Proof. vm_compute. reflexivity. Qed.
(** b *)
Example recorded_special_other_preset_flavors_hooq_anyhow_hooq_anyhow_1 : expanded su_special_other_preset_flavors_hooq_anyhow_hooq_anyhow args_special_other_preset_flavors_hooq_anyhow_hooq_anyhow_1 it_special_other_preset_flavors_hooq_anyhow_hooq_anyhow_1 = words rec_special_other_preset_flavors_hooq_anyhow_hooq_anyhow_1.
Proof. vm_compute. reflexivity. Qed.
(** c *)
Example recorded_special_other_preset_flavors_hooq_anyhow_hooq_anyhow_2 : expanded su_special_other_preset_flavors_hooq_anyhow_hooq_anyhow args_special_other_preset_flavors_hooq_anyhow_hooq_anyhow_2 it_special_other_preset_flavors_hooq_anyhow_hooq_anyhow_2 = words rec_special_other_preset_flavors_hooq_anyhow_hooq_anyhow_2.
Proof. vm_compute. reflexivity. Qed.
(** ** hooq-macros/tests/special/other-preset-flavors/hooq-color-eyre/src/hooq_color_eyre.rs *)
Definition doc_special_other_preset_flavors_hooq_color_eyre_hooq_color_eyre : list (string * ftable) := [].
Definition texts_special_other_preset_flavors_hooq_color_eyre_hooq_color_eyre : list (string * list tt) := let S := at_ "" in [].
Definition strs_special_other_preset_flavors_hooq_color_eyre_hooq_color_eyre : list (string * string) :=
  [("13 > a ( ) ? |", "  13>    a()?
    |");
   ("15 > Err ( eyre ! ( ""error!"" ) ) |", "  15>    Err(eyre!(""error!""))
    |");
   ("20 > b ( ) ? |", "  20>    b()?
    |");
   ("22 > Err ( eyre ! ( ""error!"" ) ) |", "  22>    Err(eyre!(""error!""))
    |");
   ("6 > { Some ( 10 ) } ? |", "   6>    { Some(10) }?
    |");
   ("8 > Err ( eyre ! ( ""error!"" ) ) |", "   8>    Err(eyre!(""error!""))
    |");
   ("< hooq_root > / src / hooq_color_eyre . rs", "<hooq_root>/src/hooq_color_eyre.rs");
   ("[ { 0 } : { 1 } : { 2 } ] { 3 }", "[{0}:{1}:{2}]
{3}");
   ("error !", "error!")].
Definition ends_special_other_preset_flavors_hooq_color_eyre_hooq_color_eyre : list (N * N * (N * N * string)) :=
  [(1, 23, (1, 37, "")); (4, 2, (4, 20, "")); (4, 7, (4, 19, "")); (5, 9, (5, 11, "")); (5, 22, (5, 24, "")); (5, 26, (9, 2, "")); (6, 14, (6, 26, "")); (6, 20, (6, 24, "")); (8, 8, (8, 25, "")); (8, 14, (8, 24, "")); (8, 15, (8, 23, """error!""")); (11, 2, (11, 20, "")); (11, 7, (11, 19, "")); (12, 9, (12, 11, "")); (12, 22, (12, 24, "")); (12, 26, (16, 2, "")); (13, 6, (13, 8, "")); (15, 8, (15, 25, "")); (15, 14, (15, 24, "")); (15, 15, (15, 23, """error!""")); (18, 2, (18, 20, "")); (18, 7, (18, 19, "")); (19, 9, (19, 11, "")); (19, 22, (19, 24, "")); (19, 26, (23, 2, "")); (20, 6, (20, 8, "")); (22, 8, (22, 25, "")); (22, 14, (22, 24, "")); (22, 15, (22, 23, """error!"""))].
Definition su_special_other_preset_flavors_hooq_color_eyre_hooq_color_eyre : setup := mk_setup (mk_features false false false true false "hooq") doc_special_other_preset_flavors_hooq_color_eyre_hooq_color_eyre texts_special_other_preset_flavors_hooq_color_eyre_hooq_color_eyre strs_special_other_preset_flavors_hooq_color_eyre_hooq_color_eyre [] ends_special_other_preset_flavors_hooq_color_eyre_hooq_color_eyre "hooq_color_eyre".
Definition it_special_other_preset_flavors_hooq_color_eyre_hooq_color_eyre_0 : item := let S := at_ "<hooq_root>/src/hooq_color_eyre.rs" in
  (IFn [] [I S "pub" 5 1] (mk_sig "a" (RetPath (mk_path false [mk_seg "Result" [O S "<" 5 21; G S Parenth [] 5 22; O S ">" 5 24] (S 5 15)])) [I S "fn" 5 5; I S "a" 5 8; G S Parenth [] 5 9; O S "-" 5 12; O S ">" 5 13; I S "Result" 5 15; O S "<" 5 21; G S Parenth [] 5 22; O S ">" 5 24]) (S 5 26) [(SLocalInit [] [I S "let" 6 5; I S "_n" 6 9; O S "=" 6 12] (ETry [] (EBlock [] [] (S 6 14) [(SExpr (ECall [] (EPath [] (mk_path false [mk_seg "Some" [] (S 6 16)])) (S 6 20) [(ELit [] (LOther "10") (S 6 21))] []) None)]) (S 6 26)) [] None [O S ";" 6 27]); (SExpr (ECall [] (EPath [] (mk_path false [mk_seg "Err" [] (S 8 5)])) (S 8 8) [(EMacro [] (Mac (mk_path false [mk_seg "eyre" [] (S 8 9)]) Parenth (S 8 14) [L S (LStr "error!") 8 15] (Some [VExpr (ELit [] (LStr "error!") (S 8 15)) []])))] []) None)]).
Definition args_special_other_preset_flavors_hooq_color_eyre_hooq_color_eyre_0 : list meta := let S := at_ "<hooq_root>/src/hooq_color_eyre.rs" in [(MPath (mk_path false [mk_seg "color_eyre" [] (S 4 8)]))].
Definition rec_special_other_preset_flavors_hooq_color_eyre_hooq_color_eyre_0 : list string :=
  ["# [ allow ( unused ) ] use : : color_eyre : : eyre : : ContextCompat as _ ; # [ allow ( unused ) ] use : : color_eyre : : eyre : : WrapErr as _ ; pub";
   "fn a ( ) - > Result < ( ) > { let _n = { Some ( 10 ) } . wrap_err_with ( | | { let path = ""<hooq_root>/src/hooq_color_eyre.rs"" ; let line = 6usize ;";
   "let col = 26usize ; let expr = ""\s\s\s6>\s\s\s\s{\sSome(10)\s}?\n\s\s\s\s|"" ; : : alloc : : __export : : must_use ( { : : alloc : : fmt : : format (";
   "format_args ! ( ""[{0}:{1}:{2}]\n{3}"" , path , line , col , expr ) ) } ) } ) ? ; Err ( { let error = : : eyre : : private : : format_err ( format_args";
   "! ( ""error!"" ) ) ; error } ) . wrap_err_with ( | | { let path = ""<hooq_root>/src/hooq_color_eyre.rs"" ; let line = 8usize ; let col = 5usize ; let expr";
   "= ""\s\s\s8>\s\s\s\sErr(eyre!(\""error!\""))\n\s\s\s\s|"" ; : : alloc : : __export : : must_use ( { : : alloc : : fmt : : format ( format_args ! (";
   """[{0}:{1}:{2}]\n{3}"" , path , line , col , expr ) ) } ) } ) }"].
Definition it_special_other_preset_flavors_hooq_color_eyre_hooq_color_eyre_1 : item := let S := at_ "<hooq_root>/src/hooq_color_eyre.rs" in
  (IFn [] [I S "pub" 12 1] (mk_sig "b" (RetPath (mk_path false [mk_seg "Result" [O S "<" 12 21; G S Parenth [] 12 22; O S ">" 12 24] (S 12 15)])) [I S "fn" 12 5; I S "b" 12 8; G S Parenth [] 12 9; O S "-" 12 12; O S ">" 12 13; I S "Result" 12 15; O S "<" 12 21; G S Parenth [] 12 22; O S ">" 12 24]) (S 12 26) [(SExpr (ETry [] (ECall [] (EPath [] (mk_path false [mk_seg "a" [] (S 13 5)])) (S 13 6) [] []) (S 13 8)) (Some (S 13 9))); (SExpr (ECall [] (EPath [] (mk_path false [mk_seg "Err" [] (S 15 5)])) (S 15 8) [(EMacro [] (Mac (mk_path false [mk_seg "eyre" [] (S 15 9)]) Parenth (S 15 14) [L S (LStr "error!") 15 15] (Some [VExpr (ELit [] (LStr "error!") (S 15 15)) []])))] []) None)]).
Definition args_special_other_preset_flavors_hooq_color_eyre_hooq_color_eyre_1 : list meta := let S := at_ "<hooq_root>/src/hooq_color_eyre.rs" in [(MPath (mk_path false [mk_seg "color_eyre" [] (S 11 8)]))].
Definition rec_special_other_preset_flavors_hooq_color_eyre_hooq_color_eyre_1 : list string :=
  ["# [ allow ( unused ) ] use : : color_eyre : : eyre : : ContextCompat as _ ; # [ allow ( unused ) ] use : : color_eyre : : eyre : : WrapErr as _ ; pub";
   "fn b ( ) - > Result < ( ) > { a ( ) . wrap_err_with ( | | { let path = ""<hooq_root>/src/hooq_color_eyre.rs"" ; let line = 13usize ; let col = 8usize ;";
   "let expr = ""\s\s13>\s\s\s\sa()?\n\s\s\s\s|"" ; : : alloc : : __export : : must_use ( { : : alloc : : fmt : : format ( format_args ! (";
   """[{0}:{1}:{2}]\n{3}"" , path , line , col , expr ) ) } ) } ) ? ; Err ( { let error = : : eyre : : private : : format_err ( format_args ! ( ""error!"" ) )";
   "; error } ) . wrap_err_with ( | | { let path = ""<hooq_root>/src/hooq_color_eyre.rs"" ; let line = 15usize ; let col = 5usize ; let expr =";
   """\s\s15>\s\s\s\sErr(eyre!(\""error!\""))\n\s\s\s\s|"" ; : : alloc : : __export : : must_use ( { : : alloc : : fmt : : format ( format_args ! (";
   """[{0}:{1}:{2}]\n{3}"" , path , line , col , expr ) ) } ) } ) }"].
Definition it_special_other_preset_flavors_hooq_color_eyre_hooq_color_eyre_2 : item := let S := at_ "<hooq_root>/src/hooq_color_eyre.rs" in
  (IFn [] [I S "pub" 19 1] (mk_sig "c" (RetPath (mk_path false [mk_seg "Result" [O S "<" 19 21; G S Parenth [] 19 22; O S ">" 19 24] (S 19 15)])) [I S "fn" 19 5; I S "c" 19 8; G S Parenth [] 19 9; O S "-" 19 12; O S ">" 19 13; I S "Result" 19 15; O S "<" 19 21; G S Parenth [] 19 22; O S ">" 19 24]) (S 19 26) [(SExpr (ETry [] (ECall [] (EPath [] (mk_path false [mk_seg "b" [] (S 20 5)])) (S 20 6) [] []) (S 20 8)) (Some (S 20 9))); (SExpr (ECall [] (EPath [] (mk_path false [mk_seg "Err" [] (S 22 5)])) (S 22 8) [(EMacro [] (Mac (mk_path false [mk_seg "eyre" [] (S 22 9)]) Parenth (S 22 14) [L S (LStr "error!") 22 15] (Some [VExpr (ELit [] (LStr "error!") (S 22 15)) []])))] []) None)]).
Definition args_special_other_preset_flavors_hooq_color_eyre_hooq_color_eyre_2 : list meta := let S := at_ "<hooq_root>/src/hooq_color_eyre.rs" in [(MPath (mk_path false [mk_seg "color_eyre" [] (S 18 8)]))].
Definition rec_special_other_preset_flavors_hooq_color_eyre_hooq_color_eyre_2 : list string :=
  ["# [ allow ( unused ) ] use : : color_eyre : : eyre : : ContextCompat as _ ; # [ allow ( unused ) ] use : : color_eyre : : eyre : : WrapErr as _ ; pub";
   "fn c ( ) - > Result < ( ) > { b ( ) . wrap_err_with ( | | { let path = ""<hooq_root>/src/hooq_color_eyre.rs"" ; let line = 20usize ; let col = 8usize ;";
   "let expr = ""\s\s20>\s\s\s\sb()?\n\s\s\s\s|"" ; : : alloc : : __export : : must_use ( { : : alloc : : fmt : : format ( format_args ! (";
   """[{0}:{1}:{2}]\n{3}"" , path , line , col , expr ) ) } ) } ) ? ; Err ( { let error = : : eyre : : private : : format_err ( format_args ! ( ""error!"" ) )";
   "; error } ) . wrap_err_with ( | | { let path = ""<hooq_root>/src/hooq_color_eyre.rs"" ; let line = 22usize ; let col = 5usize ; let expr =";
   """\s\s22>\s\s\s\sErr(eyre!(\""error!\""))\n\s\s\s\s|"" ; : : alloc : : __export : : must_use ( { : : alloc : : fmt : : format ( format_args ! (";
   """[{0}:{1}:{2}]\n{3}"" , path , line , col , expr ) ) } ) } ) }"].
(** a *)
Example recorded_special_other_preset_flavors_hooq_color_eyre_hooq_color_eyre_0 : expanded su_special_other_preset_flavors_hooq_color_eyre_hooq_color_eyre args_special_other_preset_flavors_hooq_color_eyre_hooq_color_eyre_0 it_special_other_preset_flavors_hooq_color_eyre_hooq_color_eyre_0 = words rec_special_other_preset_flavors_hooq_color_eyre_hooq_color_eyre_0.
Proof. vm_compute. reflexivity. Qed.
(** b *)
Example recorded_special_other_preset_flavors_hooq_color_eyre_hooq_color_eyre_1 : expanded su_special_other_preset_flavors_hooq_color_eyre_hooq_color_eyre args_special_other_preset_flavors_hooq_color_eyre_hooq_color_eyre_1 it_special_other_preset_flavors_hooq_color_eyre_hooq_color_eyre_1 = words rec_special_other_preset_flavors_hooq_color_eyre_hooq_color_eyre_1.
Proof. vm_compute. reflexivity. Qed.
(** c *)
Example recorded_special_other_preset_flavors_hooq_color_eyre_hooq_color_eyre_2 : expanded su_special_other_preset_flavors_hooq_color_eyre_hooq_color_eyre args_special_other_preset_flavors_hooq_color_eyre_hooq_color_eyre_2 it_special_other_preset_flavors_hooq_color_eyre_hooq_color_eyre_2 = words rec_special_other_preset_flavors_hooq_color_eyre_hooq_color_eyre_2.
Proof. vm_compute. reflexivity. Qed.
(** ** hooq-macros/tests/special/other-preset-flavors/hooq-eyre/src/hooq_eyre.rs *)
Definition doc_special_other_preset_flavors_hooq_eyre_hooq_eyre : list (string * ftable) := [].
Definition texts_special_other_preset_flavors_hooq_eyre_hooq_eyre : list (string * list tt) := let S := at_ "" in [].
Definition strs_special_other_preset_flavors_hooq_eyre_hooq_eyre : list (string * string) :=
  [("12 > a ( ) ? |", "  12>    a()?
    |");
   ("14 > Err ( eyre : : eyre ! ( ""error!"" ) ) |", "  14>    Err(eyre::eyre!(""error!""))
    |");
   ("19 > b ( ) ? |", "  19>    b()?
    |");
   ("21 > Err ( eyre : : eyre ! ( ""error!"" ) ) |", "  21>    Err(eyre::eyre!(""error!""))
    |");
   ("5 > { Some ( 10 ) } ? |", "   5>    { Some(10) }?
    |");
   ("7 > Err ( eyre : : eyre ! ( ""error!"" ) ) |", "   7>    Err(eyre::eyre!(""error!""))
    |");
   ("< hooq_root > / src / hooq_eyre . rs", "<hooq_root>/src/hooq_eyre.rs");
   ("[ { 0 } : { 1 } : { 2 } ] { 3 }", "[{0}:{1}:{2}]
{3}");
   ("error !", "error!")].
Definition ends_special_other_preset_flavors_hooq_eyre_hooq_eyre : list (N * N * (N * N * string)) :=
  [(3, 2, (3, 14, "")); (3, 7, (3, 13, "")); (4, 9, (4, 11, "")); (4, 28, (4, 30, "")); (4, 32, (8, 2, "")); (5, 14, (5, 26, "")); (5, 20, (5, 24, "")); (7, 8, (7, 31, "")); (7, 20, (7, 30, "")); (7, 21, (7, 29, """error!""")); (10, 2, (10, 14, "")); (10, 7, (10, 13, "")); (11, 9, (11, 11, "")); (11, 28, (11, 30, "")); (11, 32, (15, 2, "")); (12, 6, (12, 8, "")); (14, 8, (14, 31, "")); (14, 20, (14, 30, "")); (14, 21, (14, 29, """error!""")); (17, 2, (17, 14, "")); (17, 7, (17, 13, "")); (18, 9, (18, 11, "")); (18, 28, (18, 30, "")); (18, 32, (22, 2, "")); (19, 6, (19, 8, "")); (21, 8, (21, 31, "")); (21, 20, (21, 30, "")); (21, 21, (21, 29, """error!"""))].
Definition su_special_other_preset_flavors_hooq_eyre_hooq_eyre : setup := mk_setup (mk_features false false false true false "hooq") doc_special_other_preset_flavors_hooq_eyre_hooq_eyre texts_special_other_preset_flavors_hooq_eyre_hooq_eyre strs_special_other_preset_flavors_hooq_eyre_hooq_eyre [] ends_special_other_preset_flavors_hooq_eyre_hooq_eyre "hooq_eyre".
Definition it_special_other_preset_flavors_hooq_eyre_hooq_eyre_0 : item := let S := at_ "<hooq_root>/src/hooq_eyre.rs" in
  (IFn [] [I S "pub" 4 1] (mk_sig "a" (RetPath (mk_path false [mk_seg "eyre" [] (S 4 15); mk_seg "Result" [O S "<" 4 27; G S Parenth [] 4 28; O S ">" 4 30] (S 4 21)])) [I S "fn" 4 5; I S "a" 4 8; G S Parenth [] 4 9; O S "-" 4 12; O S ">" 4 13; I S "eyre" 4 15; O S ":" 4 19; O S ":" 4 20; I S "Result" 4 21; O S "<" 4 27; G S Parenth [] 4 28; O S ">" 4 30]) (S 4 32) [(SLocalInit [] [I S "let" 5 5; I S "_n" 5 9; O S "=" 5 12] (ETry [] (EBlock [] [] (S 5 14) [(SExpr (ECall [] (EPath [] (mk_path false [mk_seg "Some" [] (S 5 16)])) (S 5 20) [(ELit [] (LOther "10") (S 5 21))] []) None)]) (S 5 26)) [] None [O S ";" 5 27]); (SExpr (ECall [] (EPath [] (mk_path false [mk_seg "Err" [] (S 7 5)])) (S 7 8) [(EMacro [] (Mac (mk_path false [mk_seg "eyre" [] (S 7 9); mk_seg "eyre" [] (S 7 15)]) Parenth (S 7 20) [L S (LStr "error!") 7 21] (Some [VExpr (ELit [] (LStr "error!") (S 7 21)) []])))] []) None)]).
Definition args_special_other_preset_flavors_hooq_eyre_hooq_eyre_0 : list meta := let S := at_ "<hooq_root>/src/hooq_eyre.rs" in [(MPath (mk_path false [mk_seg "eyre" [] (S 3 8)]))].
Definition rec_special_other_preset_flavors_hooq_eyre_hooq_eyre_0 : list string :=
  ["# [ allow ( unused ) ] use : : eyre : : ContextCompat as _ ; # [ allow ( unused ) ] use : : eyre : : WrapErr as _ ; pub fn a ( ) - > eyre : : Result <";
   "( ) > { let _n = { Some ( 10 ) } . wrap_err_with ( | | { let path = ""<hooq_root>/src/hooq_eyre.rs"" ; let line = 5usize ; let col = 26usize ; let expr";
   "= ""\s\s\s5>\s\s\s\s{\sSome(10)\s}?\n\s\s\s\s|"" ; : : alloc : : __export : : must_use ( { : : alloc : : fmt : : format ( format_args ! (";
   """[{0}:{1}:{2}]\n{3}"" , path , line , col , expr ) ) } ) } ) ? ; Err ( { let error = : : eyre : : private : : format_err ( format_args ! ( ""error!"" ) )";
   "; error } ) . wrap_err_with ( | | { let path = ""<hooq_root>/src/hooq_eyre.rs"" ; let line = 7usize ; let col = 5usize ; let expr =";
   """\s\s\s7>\s\s\s\sErr(eyre::eyre!(\""error!\""))\n\s\s\s\s|"" ; : : alloc : : __export : : must_use ( { : : alloc : : fmt : : format ( format_args ! (";
   """[{0}:{1}:{2}]\n{3}"" , path , line , col , expr ) ) } ) } ) }"].
Definition it_special_other_preset_flavors_hooq_eyre_hooq_eyre_1 : item := let S := at_ "<hooq_root>/src/hooq_eyre.rs" in
  (IFn [] [I S "pub" 11 1] (mk_sig "b" (RetPath (mk_path false [mk_seg "eyre" [] (S 11 15); mk_seg "Result" [O S "<" 11 27; G S Parenth [] 11 28; O S ">" 11 30] (S 11 21)])) [I S "fn" 11 5; I S "b" 11 8; G S Parenth [] 11 9; O S "-" 11 12; O S ">" 11 13; I S "eyre" 11 15; O S ":" 11 19; O S ":" 11 20; I S "Result" 11 21; O S "<" 11 27; G S Parenth [] 11 28; O S ">" 11 30]) (S 11 32) [(SExpr (ETry [] (ECall [] (EPath [] (mk_path false [mk_seg "a" [] (S 12 5)])) (S 12 6) [] []) (S 12 8)) (Some (S 12 9))); (SExpr (ECall [] (EPath [] (mk_path false [mk_seg "Err" [] (S 14 5)])) (S 14 8) [(EMacro [] (Mac (mk_path false [mk_seg "eyre" [] (S 14 9); mk_seg "eyre" [] (S 14 15)]) Parenth (S 14 20) [L S (LStr "error!") 14 21] (Some [VExpr (ELit [] (LStr "error!") (S 14 21)) []])))] []) None)]).
Definition args_special_other_preset_flavors_hooq_eyre_hooq_eyre_1 : list meta := let S := at_ "<hooq_root>/src/hooq_eyre.rs" in [(MPath (mk_path false [mk_seg "eyre" [] (S 10 8)]))].
Definition rec_special_other_preset_flavors_hooq_eyre_hooq_eyre_1 : list string :=
  ["# [ allow ( unused ) ] use : : eyre : : ContextCompat as _ ; # [ allow ( unused ) ] use : : eyre : : WrapErr as _ ; pub fn b ( ) - > eyre : : Result <";
   "( ) > { a ( ) . wrap_err_with ( | | { let path = ""<hooq_root>/src/hooq_eyre.rs"" ; let line = 12usize ; let col = 8usize ; let expr =";
   """\s\s12>\s\s\s\sa()?\n\s\s\s\s|"" ; : : alloc : : __export : : must_use ( { : : alloc : : fmt : : format ( format_args ! ( ""[{0}:{1}:{2}]\n{3}"" , path";
   ", line , col , expr ) ) } ) } ) ? ; Err ( { let error = : : eyre : : private : : format_err ( format_args ! ( ""error!"" ) ) ; error } ) . wrap_err_with";
   "( | | { let path = ""<hooq_root>/src/hooq_eyre.rs"" ; let line = 14usize ; let col = 5usize ; let expr =";
   """\s\s14>\s\s\s\sErr(eyre::eyre!(\""error!\""))\n\s\s\s\s|"" ; : : alloc : : __export : : must_use ( { : : alloc : : fmt : : format ( format_args ! (";
   """[{0}:{1}:{2}]\n{3}"" , path , line , col , expr ) ) } ) } ) }"].
Definition it_special_other_preset_flavors_hooq_eyre_hooq_eyre_2 : item := let S := at_ "<hooq_root>/src/hooq_eyre.rs" in
  (IFn [] [I S "pub" 18 1] (mk_sig "c" (RetPath (mk_path false [mk_seg "eyre" [] (S 18 15); mk_seg "Result" [O S "<" 18 27; G S Parenth [] 18 28; O S ">" 18 30] (S 18 21)])) [I S "fn" 18 5; I S "c" 18 8; G S Parenth [] 18 9; O S "-" 18 12; O S ">" 18 13; I S "eyre" 18 15; O S ":" 18 19; O S ":" 18 20; I S "Result" 18 21; O S "<" 18 27; G S Parenth [] 18 28; O S ">" 18 30]) (S 18 32) [(SExpr (ETry [] (ECall [] (EPath [] (mk_path false [mk_seg "b" [] (S 19 5)])) (S 19 6) [] []) (S 19 8)) (Some (S 19 9))); (SExpr (ECall [] (EPath [] (mk_path false [mk_seg "Err" [] (S 21 5)])) (S 21 8) [(EMacro [] (Mac (mk_path false [mk_seg "eyre" [] (S 21 9); mk_seg "eyre" [] (S 21 15)]) Parenth (S 21 20) [L S (LStr "error!") 21 21] (Some [VExpr (ELit [] (LStr "error!") (S 21 21)) []])))] []) None)]).
Definition args_special_other_preset_flavors_hooq_eyre_hooq_eyre_2 : list meta := let S := at_ "<hooq_root>/src/hooq_eyre.rs" in [(MPath (mk_path false [mk_seg "eyre" [] (S 17 8)]))].
Definition rec_special_other_preset_flavors_hooq_eyre_hooq_eyre_2 : list string :=
  ["# [ allow ( unused ) ] use : : eyre : : ContextCompat as _ ; # [ allow ( unused ) ] use : : eyre : : WrapErr as _ ; pub fn c ( ) - > eyre : : Result <";
   "( ) > { b ( ) . wrap_err_with ( | | { let path = ""<hooq_root>/src/hooq_eyre.rs"" ; let line = 19usize ; let col = 8usize ; let expr =";
   """\s\s19>\s\s\s\sb()?\n\s\s\s\s|"" ; : : alloc : : __export : : must_use ( { : : alloc : : fmt : : format ( format_args ! ( ""[{0}:{1}:{2}]\n{3}"" , path";
   ", line , col , expr ) ) } ) } ) ? ; Err ( { let error = : : eyre : : private : : format_err ( format_args ! ( ""error!"" ) ) ; error } ) . wrap_err_with";
   "( | | { let path = ""<hooq_root>/src/hooq_eyre.rs"" ; let line = 21usize ; let col = 5usize ; let expr =";
   """\s\s21>\s\s\s\sErr(eyre::eyre!(\""error!\""))\n\s\s\s\s|"" ; : : alloc : : __export : : must_use ( { : : alloc : : fmt : : format ( format_args ! (";
   """[{0}:{1}:{2}]\n{3}"" , path , line , col , expr ) ) } ) } ) }"].
(** a *)
Example recorded_special_other_preset_flavors_hooq_eyre_hooq_eyre_0 : expanded su_special_other_preset_flavors_hooq_eyre_hooq_eyre args_special_other_preset_flavors_hooq_eyre_hooq_eyre_0 it_special_other_preset_flavors_hooq_eyre_hooq_eyre_0 = words rec_special_other_preset_flavors_hooq_eyre_hooq_eyre_0.
Proof. vm_compute. reflexivity. Qed.
(** b *)
Example recorded_special_other_preset_flavors_hooq_eyre_hooq_eyre_1 : expanded su_special_other_preset_flavors_hooq_eyre_hooq_eyre args_special_other_preset_flavors_hooq_eyre_hooq_eyre_1 it_special_other_preset_flavors_hooq_eyre_hooq_eyre_1 = words rec_special_other_preset_flavors_hooq_eyre_hooq_eyre_1.
Proof. vm_compute. reflexivity. Qed.
(** c *)
Example recorded_special_other_preset_flavors_hooq_eyre_hooq_eyre_2 : expanded su_special_other_preset_flavors_hooq_eyre_hooq_eyre args_special_other_preset_flavors_hooq_eyre_hooq_eyre_2 it_special_other_preset_flavors_hooq_eyre_hooq_eyre_2 = words rec_special_other_preset_flavors_hooq_eyre_hooq_eyre_2.
Proof. vm_compute. reflexivity. Qed.
(** ** hooq-macros/tests/special/other-preset-flavors/hooq-log/src/hooq_log.rs *)
Definition doc_special_other_preset_flavors_hooq_log_hooq_log : list (string * ftable) := [].
Definition texts_special_other_preset_flavors_hooq_log_hooq_log : list (string * list tt) := let S := at_ "" in [].
Definition strs_special_other_preset_flavors_hooq_log_hooq_log : list (string * string) :=
  [("( { 0 } : { 1 } : { 2 } ) { 3 } { 4 }", "({0}:{1}:{2}) {3}
{4}");
   ("10 > a ( ) ? |", "  10>    a()?
    |");
   ("12 > Err ( ""err"" ) |", "  12>    Err(""err"")
    |");
   ("17 > b ( ) ? |", "  17>    b()?
    |");
   ("19 > Err ( ""err"" ) |", "  19>    Err(""err"")
    |");
   ("24 > c ( ) ? |", "  24>    c()?
    |");
   ("26 > Err ( ""err"" ) |", "  26>    Err(""err"")
    |");
   ("31 > d ( ) ? |", "  31>    d()?
    |");
   ("33 > Err ( ""err"" ) |", "  33>    Err(""err"")
    |");
   ("38 > e ( ) ? |", "  38>    e()?
    |");
   ("40 > Err ( ""err"" ) |", "  40>    Err(""err"")
    |");
   ("5 > Err ( ""error!"" ) |", "   5>    Err(""error!"")
    |");
   ("< hooq_root > / src / hooq_log . rs", "<hooq_root>/src/hooq_log.rs");
   ("error !", "error!")].
Definition ends_special_other_preset_flavors_hooq_log_hooq_log : list (N * N * (N * N * string)) :=
  [(3, 2, (3, 13, "")); (3, 7, (3, 12, "")); (4, 9, (4, 11, "")); (4, 22, (4, 24, "")); (4, 40, (6, 2, "")); (5, 8, (5, 18, "")); (5, 9, (5, 17, """error!""")); (8, 2, (8, 20, "")); (8, 7, (8, 19, "")); (9, 9, (9, 11, "")); (9, 22, (9, 24, "")); (9, 40, (13, 2, "")); (10, 6, (10, 8, "")); (12, 8, (12, 15, "")); (12, 9, (12, 14, """err""")); (15, 2, (15, 19, "")); (15, 7, (15, 18, "")); (16, 9, (16, 11, "")); (16, 22, (16, 24, "")); (16, 40, (20, 2, "")); (17, 6, (17, 8, "")); (19, 8, (19, 15, "")); (19, 9, (19, 14, """err""")); (22, 2, (22, 19, "")); (22, 7, (22, 18, "")); (23, 9, (23, 11, "")); (23, 22, (23, 24, "")); (23, 40, (27, 2, "")); (24, 6, (24, 8, "")); (26, 8, (26, 15, "")); (26, 9, (26, 14, """err""")); (29, 2, (29, 20, "")); (29, 7, (29, 19, "")); (30, 9, (30, 11, "")); (30, 22, (30, 24, "")); (30, 40, (34, 2, "")); (31, 6, (31, 8, "")); (33, 8, (33, 15, "")); (33, 9, (33, 14, """err""")); (36, 2, (36, 20, "")); (36, 7, (36, 19, "")); (37, 9, (37, 11, "")); (37, 22, (37, 24, "")); (37, 40, (41, 2, "")); (38, 6, (38, 8, "")); (40, 8, (40, 15, "")); (40, 9, (40, 14, """err"""))].
Definition su_special_other_preset_flavors_hooq_log_hooq_log : setup := mk_setup (mk_features false true false false false "hooq") doc_special_other_preset_flavors_hooq_log_hooq_log texts_special_other_preset_flavors_hooq_log_hooq_log strs_special_other_preset_flavors_hooq_log_hooq_log [] ends_special_other_preset_flavors_hooq_log_hooq_log "hooq_log".
Definition it_special_other_preset_flavors_hooq_log_hooq_log_0 : item := let S := at_ "<hooq_root>/src/hooq_log.rs" in
  (IFn [] [I S "pub" 4 1] (mk_sig "a" (RetPath (mk_path false [mk_seg "Result" [O S "<" 4 21; G S Parenth [] 4 22; O S "," 4 24; O S "&" 4 26; O S "'" 4 27; I S "static" 4 28; I S "str" 4 35; O S ">" 4 38] (S 4 15)])) [I S "fn" 4 5; I S "a" 4 8; G S Parenth [] 4 9; O S "-" 4 12; O S ">" 4 13; I S "Result" 4 15; O S "<" 4 21; G S Parenth [] 4 22; O S "," 4 24; O S "&" 4 26; O S "'" 4 27; I S "static" 4 28; I S "str" 4 35; O S ">" 4 38]) (S 4 40) [(SExpr (ECall [] (EPath [] (mk_path false [mk_seg "Err" [] (S 5 5)])) (S 5 8) [(ELit [] (LStr "error!") (S 5 9))] []) None)]).
Definition args_special_other_preset_flavors_hooq_log_hooq_log_0 : list meta := let S := at_ "<hooq_root>/src/hooq_log.rs" in [(MPath (mk_path false [mk_seg "log" [] (S 3 8)]))].
Definition rec_special_other_preset_flavors_hooq_log_hooq_log_0 : list string :=
  ["pub fn a ( ) - > Result < ( ) , & ' static str > { Err ( ""error!"" ) . inspect_err ( | e | { let path = ""<hooq_root>/src/hooq_log.rs"" ; let line =";
   "5usize ; let col = 5usize ; let expr = ""\s\s\s5>\s\s\s\sErr(\""error!\"")\n\s\s\s\s|"" ; let level = : : log : : Level : : Error ; { { let lvl = level ;";
   "if lvl < = : : log : : STATIC_MAX_LEVEL & & lvl < = : : log : : max_level ( ) { : : log : : __private_api : : log ( { : : log : : __private_api : :";
   "GlobalLogger } , format_args ! ( ""({0}:{1}:{2})\s{3}\n{4}"" , path , line , col , e , expr ) , lvl , & ( ""hooq_log"" , ""hooq_log"" , : : log : :";
   "__private_api : : loc ( ) ) , ( ) ) ; } } } ; } ) }"].
Definition it_special_other_preset_flavors_hooq_log_hooq_log_1 : item := let S := at_ "<hooq_root>/src/hooq_log.rs" in
  (IFn [] [I S "pub" 9 1] (mk_sig "b" (RetPath (mk_path false [mk_seg "Result" [O S "<" 9 21; G S Parenth [] 9 22; O S "," 9 24; O S "&" 9 26; O S "'" 9 27; I S "static" 9 28; I S "str" 9 35; O S ">" 9 38] (S 9 15)])) [I S "fn" 9 5; I S "b" 9 8; G S Parenth [] 9 9; O S "-" 9 12; O S ">" 9 13; I S "Result" 9 15; O S "<" 9 21; G S Parenth [] 9 22; O S "," 9 24; O S "&" 9 26; O S "'" 9 27; I S "static" 9 28; I S "str" 9 35; O S ">" 9 38]) (S 9 40) [(SExpr (ETry [] (ECall [] (EPath [] (mk_path false [mk_seg "a" [] (S 10 5)])) (S 10 6) [] []) (S 10 8)) (Some (S 10 9))); (SExpr (ECall [] (EPath [] (mk_path false [mk_seg "Err" [] (S 12 5)])) (S 12 8) [(ELit [] (LStr "err") (S 12 9))] []) None)]).
Definition args_special_other_preset_flavors_hooq_log_hooq_log_1 : list meta := let S := at_ "<hooq_root>/src/hooq_log.rs" in [(MPath (mk_path false [mk_seg "log" [] (S 8 8); mk_seg "error" [] (S 8 13)]))].
Definition rec_special_other_preset_flavors_hooq_log_hooq_log_1 : list string :=
  ["pub fn b ( ) - > Result < ( ) , & ' static str > { a ( ) . inspect_err ( | e | { let path = ""<hooq_root>/src/hooq_log.rs"" ; let line = 10usize ; let";
   "col = 8usize ; let expr = ""\s\s10>\s\s\s\sa()?\n\s\s\s\s|"" ; let level = : : log : : Level : : Error ; { { let lvl = level ; if lvl < = : : log : :";
   "STATIC_MAX_LEVEL & & lvl < = : : log : : max_level ( ) { : : log : : __private_api : : log ( { : : log : : __private_api : : GlobalLogger } ,";
   "format_args ! ( ""({0}:{1}:{2})\s{3}\n{4}"" , path , line , col , e , expr ) , lvl , & ( ""hooq_log"" , ""hooq_log"" , : : log : : __private_api : : loc ( )";
   ") , ( ) ) ; } } } ; } ) ? ; Err ( ""err"" ) . inspect_err ( | e | { let path = ""<hooq_root>/src/hooq_log.rs"" ; let line = 12usize ; let col = 5usize ;";
   "let expr = ""\s\s12>\s\s\s\sErr(\""err\"")\n\s\s\s\s|"" ; let level = : : log : : Level : : Error ; { { let lvl = level ; if lvl < = : : log : :";
   "STATIC_MAX_LEVEL & & lvl < = : : log : : max_level ( ) { : : log : : __private_api : : log ( { : : log : : __private_api : : GlobalLogger } ,";
   "format_args ! ( ""({0}:{1}:{2})\s{3}\n{4}"" , path , line , col , e , expr ) , lvl , & ( ""hooq_log"" , ""hooq_log"" , : : log : : __private_api : : loc ( )";
   ") , ( ) ) ; } } } ; } ) }"].
Definition it_special_other_preset_flavors_hooq_log_hooq_log_2 : item := let S := at_ "<hooq_root>/src/hooq_log.rs" in
  (IFn [] [I S "pub" 16 1] (mk_sig "c" (RetPath (mk_path false [mk_seg "Result" [O S "<" 16 21; G S Parenth [] 16 22; O S "," 16 24; O S "&" 16 26; O S "'" 16 27; I S "static" 16 28; I S "str" 16 35; O S ">" 16 38] (S 16 15)])) [I S "fn" 16 5; I S "c" 16 8; G S Parenth [] 16 9; O S "-" 16 12; O S ">" 16 13; I S "Result" 16 15; O S "<" 16 21; G S Parenth [] 16 22; O S "," 16 24; O S "&" 16 26; O S "'" 16 27; I S "static" 16 28; I S "str" 16 35; O S ">" 16 38]) (S 16 40) [(SExpr (ETry [] (ECall [] (EPath [] (mk_path false [mk_seg "b" [] (S 17 5)])) (S 17 6) [] []) (S 17 8)) (Some (S 17 9))); (SExpr (ECall [] (EPath [] (mk_path false [mk_seg "Err" [] (S 19 5)])) (S 19 8) [(ELit [] (LStr "err") (S 19 9))] []) None)]).
Definition args_special_other_preset_flavors_hooq_log_hooq_log_2 : list meta := let S := at_ "<hooq_root>/src/hooq_log.rs" in [(MPath (mk_path false [mk_seg "log" [] (S 15 8); mk_seg "warn" [] (S 15 13)]))].
Definition rec_special_other_preset_flavors_hooq_log_hooq_log_2 : list string :=
  ["pub fn c ( ) - > Result < ( ) , & ' static str > { b ( ) . inspect_err ( | e | { let path = ""<hooq_root>/src/hooq_log.rs"" ; let line = 17usize ; let";
   "col = 8usize ; let expr = ""\s\s17>\s\s\s\sb()?\n\s\s\s\s|"" ; let level = : : log : : Level : : Warn ; { { let lvl = level ; if lvl < = : : log : :";
   "STATIC_MAX_LEVEL & & lvl < = : : log : : max_level ( ) { : : log : : __private_api : : log ( { : : log : : __private_api : : GlobalLogger } ,";
   "format_args ! ( ""({0}:{1}:{2})\s{3}\n{4}"" , path , line , col , e , expr ) , lvl , & ( ""hooq_log"" , ""hooq_log"" , : : log : : __private_api : : loc ( )";
   ") , ( ) ) ; } } } ; } ) ? ; Err ( ""err"" ) . inspect_err ( | e | { let path = ""<hooq_root>/src/hooq_log.rs"" ; let line = 19usize ; let col = 5usize ;";
   "let expr = ""\s\s19>\s\s\s\sErr(\""err\"")\n\s\s\s\s|"" ; let level = : : log : : Level : : Warn ; { { let lvl = level ; if lvl < = : : log : :";
   "STATIC_MAX_LEVEL & & lvl < = : : log : : max_level ( ) { : : log : : __private_api : : log ( { : : log : : __private_api : : GlobalLogger } ,";
   "format_args ! ( ""({0}:{1}:{2})\s{3}\n{4}"" , path , line , col , e , expr ) , lvl , & ( ""hooq_log"" , ""hooq_log"" , : : log : : __private_api : : loc ( )";
   ") , ( ) ) ; } } } ; } ) }"].
Definition it_special_other_preset_flavors_hooq_log_hooq_log_3 : item := let S := at_ "<hooq_root>/src/hooq_log.rs" in
  (IFn [] [I S "pub" 23 1] (mk_sig "d" (RetPath (mk_path false [mk_seg "Result" [O S "<" 23 21; G S Parenth [] 23 22; O S "," 23 24; O S "&" 23 26; O S "'" 23 27; I S "static" 23 28; I S "str" 23 35; O S ">" 23 38] (S 23 15)])) [I S "fn" 23 5; I S "d" 23 8; G S Parenth [] 23 9; O S "-" 23 12; O S ">" 23 13; I S "Result" 23 15; O S "<" 23 21; G S Parenth [] 23 22; O S "," 23 24; O S "&" 23 26; O S "'" 23 27; I S "static" 23 28; I S "str" 23 35; O S ">" 23 38]) (S 23 40) [(SExpr (ETry [] (ECall [] (EPath [] (mk_path false [mk_seg "c" [] (S 24 5)])) (S 24 6) [] []) (S 24 8)) (Some (S 24 9))); (SExpr (ECall [] (EPath [] (mk_path false [mk_seg "Err" [] (S 26 5)])) (S 26 8) [(ELit [] (LStr "err") (S 26 9))] []) None)]).
Definition args_special_other_preset_flavors_hooq_log_hooq_log_3 : list meta := let S := at_ "<hooq_root>/src/hooq_log.rs" in [(MPath (mk_path false [mk_seg "log" [] (S 22 8); mk_seg "info" [] (S 22 13)]))].
Definition rec_special_other_preset_flavors_hooq_log_hooq_log_3 : list string :=
  ["pub fn d ( ) - > Result < ( ) , & ' static str > { c ( ) . inspect_err ( | e | { let path = ""<hooq_root>/src/hooq_log.rs"" ; let line = 24usize ; let";
   "col = 8usize ; let expr = ""\s\s24>\s\s\s\sc()?\n\s\s\s\s|"" ; let level = : : log : : Level : : Info ; { { let lvl = level ; if lvl < = : : log : :";
   "STATIC_MAX_LEVEL & & lvl < = : : log : : max_level ( ) { : : log : : __private_api : : log ( { : : log : : __private_api : : GlobalLogger } ,";
   "format_args ! ( ""({0}:{1}:{2})\s{3}\n{4}"" , path , line , col , e , expr ) , lvl , & ( ""hooq_log"" , ""hooq_log"" , : : log : : __private_api : : loc ( )";
   ") , ( ) ) ; } } } ; } ) ? ; Err ( ""err"" ) . inspect_err ( | e | { let path = ""<hooq_root>/src/hooq_log.rs"" ; let line = 26usize ; let col = 5usize ;";
   "let expr = ""\s\s26>\s\s\s\sErr(\""err\"")\n\s\s\s\s|"" ; let level = : : log : : Level : : Info ; { { let lvl = level ; if lvl < = : : log : :";
   "STATIC_MAX_LEVEL & & lvl < = : : log : : max_level ( ) { : : log : : __private_api : : log ( { : : log : : __private_api : : GlobalLogger } ,";
   "format_args ! ( ""({0}:{1}:{2})\s{3}\n{4}"" , path , line , col , e , expr ) , lvl , & ( ""hooq_log"" , ""hooq_log"" , : : log : : __private_api : : loc ( )";
   ") , ( ) ) ; } } } ; } ) }"].
Definition it_special_other_preset_flavors_hooq_log_hooq_log_4 : item := let S := at_ "<hooq_root>/src/hooq_log.rs" in
  (IFn [] [I S "pub" 30 1] (mk_sig "e" (RetPath (mk_path false [mk_seg "Result" [O S "<" 30 21; G S Parenth [] 30 22; O S "," 30 24; O S "&" 30 26; O S "'" 30 27; I S "static" 30 28; I S "str" 30 35; O S ">" 30 38] (S 30 15)])) [I S "fn" 30 5; I S "e" 30 8; G S Parenth [] 30 9; O S "-" 30 12; O S ">" 30 13; I S "Result" 30 15; O S "<" 30 21; G S Parenth [] 30 22; O S "," 30 24; O S "&" 30 26; O S "'" 30 27; I S "static" 30 28; I S "str" 30 35; O S ">" 30 38]) (S 30 40) [(SExpr (ETry [] (ECall [] (EPath [] (mk_path false [mk_seg "d" [] (S 31 5)])) (S 31 6) [] []) (S 31 8)) (Some (S 31 9))); (SExpr (ECall [] (EPath [] (mk_path false [mk_seg "Err" [] (S 33 5)])) (S 33 8) [(ELit [] (LStr "err") (S 33 9))] []) None)]).
Definition args_special_other_preset_flavors_hooq_log_hooq_log_4 : list meta := let S := at_ "<hooq_root>/src/hooq_log.rs" in [(MPath (mk_path false [mk_seg "log" [] (S 29 8); mk_seg "debug" [] (S 29 13)]))].
Definition rec_special_other_preset_flavors_hooq_log_hooq_log_4 : list string :=
  ["pub fn e ( ) - > Result < ( ) , & ' static str > { d ( ) . inspect_err ( | e | { let path = ""<hooq_root>/src/hooq_log.rs"" ; let line = 31usize ; let";
   "col = 8usize ; let expr = ""\s\s31>\s\s\s\sd()?\n\s\s\s\s|"" ; let level = : : log : : Level : : Debug ; { { let lvl = level ; if lvl < = : : log : :";
   "STATIC_MAX_LEVEL & & lvl < = : : log : : max_level ( ) { : : log : : __private_api : : log ( { : : log : : __private_api : : GlobalLogger } ,";
   "format_args ! ( ""({0}:{1}:{2})\s{3}\n{4}"" , path , line , col , e , expr ) , lvl , & ( ""hooq_log"" , ""hooq_log"" , : : log : : __private_api : : loc ( )";
   ") , ( ) ) ; } } } ; } ) ? ; Err ( ""err"" ) . inspect_err ( | e | { let path = ""<hooq_root>/src/hooq_log.rs"" ; let line = 33usize ; let col = 5usize ;";
   "let expr = ""\s\s33>\s\s\s\sErr(\""err\"")\n\s\s\s\s|"" ; let level = : : log : : Level : : Debug ; { { let lvl = level ; if lvl < = : : log : :";
   "STATIC_MAX_LEVEL & & lvl < = : : log : : max_level ( ) { : : log : : __private_api : : log ( { : : log : : __private_api : : GlobalLogger } ,";
   "format_args ! ( ""({0}:{1}:{2})\s{3}\n{4}"" , path , line , col , e , expr ) , lvl , & ( ""hooq_log"" , ""hooq_log"" , : : log : : __private_api : : loc ( )";
   ") , ( ) ) ; } } } ; } ) }"].
Definition it_special_other_preset_flavors_hooq_log_hooq_log_5 : item := let S := at_ "<hooq_root>/src/hooq_log.rs" in
  (IFn [] [I S "pub" 37 1] (mk_sig "f" (RetPath (mk_path false [mk_seg "Result" [O S "<" 37 21; G S Parenth [] 37 22; O S "," 37 24; O S "&" 37 26; O S "'" 37 27; I S "static" 37 28; I S "str" 37 35; O S ">" 37 38] (S 37 15)])) [I S "fn" 37 5; I S "f" 37 8; G S Parenth [] 37 9; O S "-" 37 12; O S ">" 37 13; I S "Result" 37 15; O S "<" 37 21; G S Parenth [] 37 22; O S "," 37 24; O S "&" 37 26; O S "'" 37 27; I S "static" 37 28; I S "str" 37 35; O S ">" 37 38]) (S 37 40) [(SExpr (ETry [] (ECall [] (EPath [] (mk_path false [mk_seg "e" [] (S 38 5)])) (S 38 6) [] []) (S 38 8)) (Some (S 38 9))); (SExpr (ECall [] (EPath [] (mk_path false [mk_seg "Err" [] (S 40 5)])) (S 40 8) [(ELit [] (LStr "err") (S 40 9))] []) None)]).
Definition args_special_other_preset_flavors_hooq_log_hooq_log_5 : list meta := let S := at_ "<hooq_root>/src/hooq_log.rs" in [(MPath (mk_path false [mk_seg "log" [] (S 36 8); mk_seg "trace" [] (S 36 13)]))].
Definition rec_special_other_preset_flavors_hooq_log_hooq_log_5 : list string :=
  ["pub fn f ( ) - > Result < ( ) , & ' static str > { e ( ) . inspect_err ( | e | { let path = ""<hooq_root>/src/hooq_log.rs"" ; let line = 38usize ; let";
   "col = 8usize ; let expr = ""\s\s38>\s\s\s\se()?\n\s\s\s\s|"" ; let level = : : log : : Level : : Trace ; { { let lvl = level ; if lvl < = : : log : :";
   "STATIC_MAX_LEVEL & & lvl < = : : log : : max_level ( ) { : : log : : __private_api : : log ( { : : log : : __private_api : : GlobalLogger } ,";
   "format_args ! ( ""({0}:{1}:{2})\s{3}\n{4}"" , path , line , col , e , expr ) , lvl , & ( ""hooq_log"" , ""hooq_log"" , : : log : : __private_api : : loc ( )";
   ") , ( ) ) ; } } } ; } ) ? ; Err ( ""err"" ) . inspect_err ( | e | { let path = ""<hooq_root>/src/hooq_log.rs"" ; let line = 40usize ; let col = 5usize ;";
   "let expr = ""\s\s40>\s\s\s\sErr(\""err\"")\n\s\s\s\s|"" ; let level = : : log : : Level : : Trace ; { { let lvl = level ; if lvl < = : : log : :";
   "STATIC_MAX_LEVEL & & lvl < = : : log : : max_level ( ) { : : log : : __private_api : : log ( { : : log : : __private_api : : GlobalLogger } ,";
   "format_args ! ( ""({0}:{1}:{2})\s{3}\n{4}"" , path , line , col , e , expr ) , lvl , & ( ""hooq_log"" , ""hooq_log"" , : : log : : __private_api : : loc ( )";
   ") , ( ) ) ; } } } ; } ) }"].
(** a *)
Example recorded_special_other_preset_flavors_hooq_log_hooq_log_0 : expanded su_special_other_preset_flavors_hooq_log_hooq_log args_special_other_preset_flavors_hooq_log_hooq_log_0 it_special_other_preset_flavors_hooq_log_hooq_log_0 = words rec_special_other_preset_flavors_hooq_log_hooq_log_0.
Proof. vm_compute. reflexivity. Qed.
(** b *)
Example recorded_special_other_preset_flavors_hooq_log_hooq_log_1 : expanded su_special_other_preset_flavors_hooq_log_hooq_log args_special_other_preset_flavors_hooq_log_hooq_log_1 it_special_other_preset_flavors_hooq_log_hooq_log_1 = words rec_special_other_preset_flavors_hooq_log_hooq_log_1.
Proof. vm_compute. reflexivity. Qed.
(** c *)
Example recorded_special_other_preset_flavors_hooq_log_hooq_log_2 : expanded su_special_other_preset_flavors_hooq_log_hooq_log args_special_other_preset_flavors_hooq_log_hooq_log_2 it_special_other_preset_flavors_hooq_log_hooq_log_2 = words rec_special_other_preset_flavors_hooq_log_hooq_log_2.
Proof. vm_compute. reflexivity. Qed.
(** d *)
Example recorded_special_other_preset_flavors_hooq_log_hooq_log_3 : expanded su_special_other_preset_flavors_hooq_log_hooq_log args_special_other_preset_flavors_hooq_log_hooq_log_3 it_special_other_preset_flavors_hooq_log_hooq_log_3 = words rec_special_other_preset_flavors_hooq_log_hooq_log_3.
Proof. vm_compute. reflexivity. Qed.
(** e *)
Example recorded_special_other_preset_flavors_hooq_log_hooq_log_4 : expanded su_special_other_preset_flavors_hooq_log_hooq_log args_special_other_preset_flavors_hooq_log_hooq_log_4 it_special_other_preset_flavors_hooq_log_hooq_log_4 = words rec_special_other_preset_flavors_hooq_log_hooq_log_4.
Proof. vm_compute. reflexivity. Qed.
(** f *)
Example recorded_special_other_preset_flavors_hooq_log_hooq_log_5 : expanded su_special_other_preset_flavors_hooq_log_hooq_log args_special_other_preset_flavors_hooq_log_hooq_log_5 it_special_other_preset_flavors_hooq_log_hooq_log_5 = words rec_special_other_preset_flavors_hooq_log_hooq_log_5.
Proof. vm_compute. reflexivity. Qed.
(** ** hooq-macros/tests/special/skip.rs *)
Definition doc_special_skip : list (string * ftable) := [].
Definition texts_special_skip : list (string * list tt) := let S := at_ "" in [].
Definition strs_special_skip : list (string * string) :=
  [("( no tag )", "(no tag)");
   ("tag : { 0 }", "tag: {0}
")].
Definition ends_special_skip : list (N * N * (N * N * string)) :=
  [(1, 3, (1, 25, "")); (1, 9, (1, 24, "")); (5, 2, (5, 8, "")); (6, 15, (6, 21, "")); (6, 35, (6, 37, "")); (6, 39, (8, 2, "")); (7, 7, (7, 10, "")); (10, 2, (10, 8, "")); (11, 2, (11, 18, "")); (12, 15, (12, 17, "")); (12, 28, (12, 30, "")); (12, 32, (12, 34, "")); (12, 36, (42, 2, "")); (13, 13, (13, 17, "")); (13, 14, (13, 16, "")); (15, 6, (15, 52, "")); (15, 19, (15, 51, """this attribute must be removed""")); (16, 16, (16, 23, "")); (16, 25, (19, 6, "")); (17, 10, (17, 56, "")); (17, 23, (17, 55, """this attribute must be removed""")); (18, 19, (18, 23, "")); (18, 20, (18, 22, "")); (21, 16, (21, 23, "")); (21, 25, (24, 6, "")); (22, 10, (22, 56, "")); (22, 23, (22, 55, """this attribute must be removed""")); (23, 24, (23, 28, "")); (23, 25, (23, 27, "")); (26, 6, (26, 52, "")); (26, 19, (26, 51, """this attribute must be removed""")); (27, 19, (27, 21, "")); (27, 23, (27, 25, "")); (27, 29, (39, 6, "")); (28, 17, (28, 21, "")); (28, 18, (28, 20, "")); (30, 10, (30, 56, "")); (30, 23, (30, 55, """this attribute must be removed""")); (31, 20, (31, 27, "")); (31, 29, (36, 10, "")); (32, 14, (32, 60, "")); (32, 27, (32, 59, """this attribute must be removed""")); (33, 21, (33, 25, "")); (33, 22, (33, 24, "")); (35, 23, (35, 27, "")); (35, 24, (35, 26, "")); (38, 12, (38, 16, "")); (38, 13, (38, 15, "")); (41, 8, (41, 12, "")); (41, 9, (41, 11, "")); (44, 2, (44, 8, "")); (45, 2, (47, 5, "")); (45, 15, (47, 4, "")); (45, 24, (47, 3, "")); (45, 29, (47, 2, "")); (46, 13, (46, 30, "")); (46, 14, (46, 23, """tag: {}""")); (48, 2, (48, 39, "")); (48, 25, (48, 38, "")); (48, 26, (48, 30, """Ok""")); (48, 32, (48, 37, """Err""")); (49, 16, (49, 18, "")); (49, 29, (49, 31, "")); (49, 33, (49, 35, "")); (49, 37, (104, 2, "")); (50, 32, (50, 38, "")); (52, 6, (52, 23, "")); (52, 19, (52, 22, """1""")); (53, 17, (53, 19, "")); (53, 21, (101, 6, "")); (54, 10, (54, 22, "")); (55, 10, (55, 27, "")); (55, 23, (55, 26, """2""")); (56, 21, (56, 23, "")); (56, 25, (98, 10, "")); (57, 25, (57, 27, "")); (57, 29, (72, 14, "")); (58, 18, (58, 35, "")); (58, 31, (58, 34, """3""")); (59, 25, (59, 29, "")); (59, 26, (59, 28, "")); (61, 18, (61, 30, "")); (62, 28, (62, 35, "")); (62, 37, (69, 18, "")); (63, 29, (63, 33, "")); (63, 30, (63, 32, "")); (65, 28, (68, 22, "")); (66, 26, (66, 38, "")); (67, 28, (67, 32, "")); (67, 29, (67, 31, "")); (71, 20, (71, 24, "")); (71, 21, (71, 23, "")); (72, 20, (97, 14, "")); (73, 25, (73, 29, "")); (73, 26, (73, 28, "")); (75, 18, (75, 34, "")); (76, 28, (76, 35, "")); (76, 37, (80, 18, "")); (77, 29, (77, 33, "")); (77, 30, (77, 32, "")); (79, 31, (79, 35, "")); (79, 32, (79, 34, "")); (82, 28, (82, 35, "")); (82, 37, (94, 18, "")); (83, 32, (83, 39, "")); (83, 41, (85, 22, "")); (84, 32, (84, 43, "")); (84, 37, (84, 41, "")); (84, 38, (84, 40, "")); (87, 22, (87, 34, "")); (88, 28, (93, 22, "")); (89, 26, (89, 38, "")); (90, 25, (92, 26, "")); (91, 32, (91, 36, "")); (91, 33, (91, 35, "")); (96, 20, (96, 24, "")); (96, 21, (96, 23, "")); (98, 16, (100, 10, "")); (99, 16, (99, 20, "")); (99, 17, (99, 19, "")); (101, 12, (103, 6, "")); (102, 12, (102, 16, "")); (102, 13, (102, 15, "")); (106, 2, (106, 8, "")); (107, 2, (109, 5, "")); (107, 15, (109, 4, "")); (107, 24, (109, 3, "")); (107, 29, (109, 2, "")); (108, 13, (108, 30, "")); (108, 14, (108, 23, """tag: {}""")); (110, 2, (110, 26, "")); (110, 15, (110, 25, """(no tag)""")); (111, 8, (111, 10, "")); (111, 21, (111, 23, "")); (111, 25, (111, 27, "")); (111, 29, (117, 2, "")); (112, 16, (112, 18, "")); (114, 17, (114, 19, "")); (116, 8, (116, 12, "")); (116, 9, (116, 11, "")); (119, 2, (119, 8, "")); (120, 8, (120, 10, "")); (120, 11, (122, 2, "")); (121, 9, (121, 11, "")); (121, 22, (121, 24, ""))].
Definition su_special_skip : setup := mk_setup (mk_features false false true false false "hooq") doc_special_skip texts_special_skip strs_special_skip [] ends_special_skip "skip".
Definition it_special_skip_0 : item := let S := at_ "hooq-macros/tests/special/skip.rs" in
  (IFn [] [] (mk_sig "enresult" (RetPath (mk_path false [mk_seg "Result" [O S "<" 6 31; I S "T" 6 32; O S "," 6 33; G S Parenth [] 6 35; O S ">" 6 37] (S 6 25)])) [I S "fn" 6 1; I S "enresult" 6 4; O S "<" 6 12; I S "T" 6 13; O S ">" 6 14; G S Parenth [I S "t" 6 16; O S ":" 6 17; I S "T" 6 19] 6 15; O S "-" 6 22; O S ">" 6 23; I S "Result" 6 25; O S "<" 6 31; I S "T" 6 32; O S "," 6 33; G S Parenth [] 6 35; O S ">" 6 37]) (S 6 39) [(SExpr (ECall [] (EPath [] (mk_path false [mk_seg "Ok" [] (S 7 5)])) (S 7 7) [(EPath [] (mk_path false [mk_seg "t" [] (S 7 8)]))] []) None)]).
Definition args_special_skip_0 : list meta := let S := at_ "hooq-macros/tests/special/skip.rs" in [].
Definition rec_special_skip_0 : list string :=
  ["fn enresult < T > ( t : T ) - > Result < T , ( ) > { Ok ( t ) }"].
Definition it_special_skip_1 : item := let S := at_ "hooq-macros/tests/special/skip.rs" in
  (IFn [mk_attr false (S 11 1) (MPath (mk_path false [mk_seg "hooq" [] (S 11 3); mk_seg "skip_all" [] (S 11 9)]))] [] (mk_sig "skip_target" (RetPath (mk_path false [mk_seg "Result" [O S "<" 12 27; G S Parenth [] 12 28; O S "," 12 30; G S Parenth [] 12 32; O S ">" 12 34] (S 12 21)])) [I S "fn" 12 1; I S "skip_target" 12 4; G S Parenth [] 12 15; O S "-" 12 18; O S ">" 12 19; I S "Result" 12 21; O S "<" 12 27; G S Parenth [] 12 28; O S "," 12 30; G S Parenth [] 12 32; O S ">" 12 34]) (S 12 36) [(SExpr (ETry [] (ECall [] (EPath [] (mk_path false [mk_seg "enresult" [] (S 13 5)])) (S 13 13) [(ETuple [] (S 13 14) [] [])] []) (S 13 17)) (Some (S 13 18))); (SExpr (EIf [mk_attr false (S 15 5) (MNameValue (mk_path false [mk_seg "hooq" [] (S 15 7); mk_seg "tag" [] (S 15 13)]) (VStr "this attribute must be removed" (S 15 19)))] [I S "if" 16 5] (ETry [] (ECall [] (EPath [] (mk_path false [mk_seg "enresult" [] (S 16 8)])) (S 16 16) [(EPath [] (mk_path false [mk_seg "false" [] (S 16 17)]))] []) (S 16 23)) (S 16 25) [(SExpr (EReturn [mk_attr false (S 17 9) (MNameValue (mk_path false [mk_seg "hooq" [] (S 17 11); mk_seg "tag" [] (S 17 17)]) (VStr "this attribute must be removed" (S 17 23)))] (S 18 9) (Some (ECall [] (EPath [] (mk_path false [mk_seg "Err" [] (S 18 16)])) (S 18 19) [(ETuple [] (S 18 20) [] [])] []))) (Some (S 18 23)))] [] None) None); (SExpr (EIf [] [I S "if" 21 5] (ETry [] (ECall [] (EPath [] (mk_path false [mk_seg "enresult" [] (S 21 8)])) (S 21 16) [(EPath [] (mk_path false [mk_seg "false" [] (S 21 17)]))] []) (S 21 23)) (S 21 25) [(SExpr (EReturn [mk_attr false (S 22 9) (MNameValue (mk_path false [mk_seg "hooq" [] (S 22 11); mk_seg "tag" [] (S 22 17)]) (VStr "this attribute must be removed" (S 22 23)))] (S 23 9) (Some (ECall [] (EPath [] (mk_path false [mk_seg "enresult" [] (S 23 16)])) (S 23 24) [(ETuple [] (S 23 25) [] [])] []))) (Some (S 23 28)))] [] None) None); (SLocalInit [mk_attr false (S 26 5) (MNameValue (mk_path false [mk_seg "hooq" [] (S 26 7); mk_seg "tag" [] (S 26 13)]) (VStr "this attribute must be removed" (S 26 19)))] [I S "let" 27 5; I S "_" 27 9; O S ":" 27 10; I S "Result" 27 12; O S "<" 27 18; G S Parenth [] 27 19; O S "," 27 21; G S Parenth [] 27 23; O S ">" 27 25; O S "=" 27 27] (EBlock [] [] (S 27 29) [(SExpr (ETry [] (ECall [] (EPath [] (mk_path false [mk_seg "enresult" [] (S 28 9)])) (S 28 17) [(ETuple [] (S 28 18) [] [])] []) (S 28 21)) (Some (S 28 22))); (SExpr (EIf [mk_attr false (S 30 9) (MNameValue (mk_path false [mk_seg "hooq" [] (S 30 11); mk_seg "tag" [] (S 30 17)]) (VStr "this attribute must be removed" (S 30 23)))] [I S "if" 31 9] (ETry [] (ECall [] (EPath [] (mk_path false [mk_seg "enresult" [] (S 31 12)])) (S 31 20) [(EPath [] (mk_path false [mk_seg "false" [] (S 31 21)]))] []) (S 31 27)) (S 31 29) [(SExpr (ETry [mk_attr false (S 32 13) (MNameValue (mk_path false [mk_seg "hooq" [] (S 32 15); mk_seg "tag" [] (S 32 21)]) (VStr "this attribute must be removed" (S 32 27)))] (ECall [] (EPath [] (mk_path false [mk_seg "enresult" [] (S 33 13)])) (S 33 21) [(ETuple [] (S 33 22) [] [])] []) (S 33 25)) (Some (S 33 26))); (SExpr (EReturn [] (S 35 13) (Some (ECall [] (EPath [] (mk_path false [mk_seg "Err" [] (S 35 20)])) (S 35 23) [(ETuple [] (S 35 24) [] [])] []))) (Some (S 35 27)))] [] None) None); (SExpr (ECall [] (EPath [] (mk_path false [mk_seg "Err" [] (S 38 9)])) (S 38 12) [(ETuple [] (S 38 13) [] [])] []) None)]) [] None [O S ";" 39 6]); (SExpr (ECall [] (EPath [] (mk_path false [mk_seg "Err" [] (S 41 5)])) (S 41 8) [(ETuple [] (S 41 9) [] [])] []) None)]).
Definition args_special_skip_1 : list meta := let S := at_ "hooq-macros/tests/special/skip.rs" in [].
Definition rec_special_skip_1 : list string :=
  ["fn skip_target ( ) - > Result < ( ) , ( ) > { enresult ( ( ) ) ? ; if enresult ( false ) ? { return Err ( ( ) ) ; } if enresult ( false ) ? { return";
   "enresult ( ( ) ) ; } let _ : Result < ( ) , ( ) > = { enresult ( ( ) ) ? ; if enresult ( false ) ? { enresult ( ( ) ) ? ; return Err ( ( ) ) ; } Err (";
   "( ) ) } ; Err ( ( ) ) }"].
Definition it_special_skip_2 : item := let S := at_ "hooq-macros/tests/special/skip.rs" in
  (IFn [mk_attr false (S 45 1) (MList (mk_path false [mk_seg "hooq" [] (S 45 3); mk_seg "method" [] (S 45 9)]) Parenth [O S "." 45 16; I S "inspect" 45 17; G S Parenth [O S "|" 45 25; I S "_" 45 26; O S "|" 45 27; G S Brace [I S "println" 46 5; O S "!" 46 12; G S Parenth [L S (LStr "tag: {}") 46 14; O S "," 46 23; O S "$" 46 25; I S "tag" 46 26] 46 13; O S ";" 46 30] 45 29] 45 24] (S 45 15)); mk_attr false (S 48 1) (MList (mk_path false [mk_seg "hooq" [] (S 48 3); mk_seg "tail_expr_idents" [] (S 48 9)]) Parenth [L S (LStr "Ok") 48 26; O S "," 48 30; L S (LStr "Err") 48 32] (S 48 25))] [] (mk_sig "complex_skip" (RetPath (mk_path false [mk_seg "Result" [O S "<" 49 28; G S Parenth [] 49 29; O S "," 49 31; G S Parenth [] 49 33; O S ">" 49 35] (S 49 22)])) [I S "fn" 49 1; I S "complex_skip" 49 4; G S Parenth [] 49 16; O S "-" 49 19; O S ">" 49 20; I S "Result" 49 22; O S "<" 49 28; G S Parenth [] 49 29; O S "," 49 31; G S Parenth [] 49 33; O S ">" 49 35]) (S 49 37) [(SLocalInit [] [I S "let" 50 5; I S "gen_bools" 50 9; O S "=" 50 19] (EClosure [] [O S "|" 50 21; O S "|" 50 22] RetNone (ECall [] (EPath [] (mk_path false [mk_seg "enresult" [] (S 50 24)])) (S 50 32) [(EPath [] (mk_path false [mk_seg "true" [] (S 50 33)]))] [])) [] None [O S ";" 50 38]); (SExpr (EIf [mk_attr false (S 52 5) (MNameValue (mk_path false [mk_seg "hooq" [] (S 52 7); mk_seg "tag" [] (S 52 13)]) (VStr "1" (S 52 19)))] [I S "if" 53 5] (ETry [] (ECall [] (EPath [] (mk_path false [mk_seg "gen_bools" [] (S 53 8)])) (S 53 17) [] []) (S 53 19)) (S 53 21) [(SExpr (EIf [mk_attr false (S 54 9) (MPath (mk_path false [mk_seg "hooq" [] (S 54 11); mk_seg "skip" [] (S 54 17)])); mk_attr false (S 55 9) (MNameValue (mk_path false [mk_seg "hooq" [] (S 55 11); mk_seg "tag" [] (S 55 17)]) (VStr "2" (S 55 23)))] [I S "if" 56 9] (ETry [] (ECall [] (EPath [] (mk_path false [mk_seg "gen_bools" [] (S 56 12)])) (S 56 21) [] []) (S 56 23)) (S 56 25) [(SExpr (EIf [] [I S "if" 57 13] (ETry [] (ECall [] (EPath [] (mk_path false [mk_seg "gen_bools" [] (S 57 16)])) (S 57 25) [] []) (S 57 27)) (S 57 29) [(SExpr (ETry [mk_attr false (S 58 17) (MNameValue (mk_path false [mk_seg "hooq" [] (S 58 19); mk_seg "tag" [] (S 58 25)]) (VStr "3" (S 58 31)))] (ECall [] (EPath [] (mk_path false [mk_seg "enresult" [] (S 59 17)])) (S 59 25) [(ETuple [] (S 59 26) [] [])] []) (S 59 29)) (Some (S 59 30))); (SExpr (EIf [mk_attr false (S 61 17) (MPath (mk_path false [mk_seg "hooq" [] (S 61 19); mk_seg "skip" [] (S 61 25)]))] [I S "if" 62 17] (ETry [] (ECall [] (EPath [] (mk_path false [mk_seg "enresult" [] (S 62 20)])) (S 62 28) [(EPath [] (mk_path false [mk_seg "false" [] (S 62 29)]))] []) (S 62 35)) (S 62 37) [(SExpr (ETry [] (ECall [] (EPath [] (mk_path false [mk_seg "enresult" [] (S 63 21)])) (S 63 29) [(ETuple [] (S 63 30) [] [])] []) (S 63 33)) (Some (S 63 34))); (SExpr (EReturn [] (S 65 21) (Some (EBlock [] [] (S 65 28) [(SExpr (ECall [mk_attr false (S 66 25) (MPath (mk_path false [mk_seg "hooq" [] (S 66 27); mk_seg "skip" [] (S 66 33)]))] (EPath [] (mk_path false [mk_seg "Err" [] (S 67 25)])) (S 67 28) [(ETuple [] (S 67 29) [] [])] []) None)]))) (Some (S 68 22)))] [] None) None); (SExpr (ECall [] (EPath [] (mk_path false [mk_seg "Err" [] (S 71 17)])) (S 71 20) [(ETuple [] (S 71 21) [] [])] []) None)] [I S "else" 72 15] (Some (EBlock [] [] (S 72 20) [(SExpr (ETry [] (ECall [] (EPath [] (mk_path false [mk_seg "enresult" [] (S 73 17)])) (S 73 25) [(ETuple [] (S 73 26) [] [])] []) (S 73 29)) (Some (S 73 30))); (SExpr (EIf [mk_attr false (S 75 17) (MPath (mk_path false [mk_seg "hooq" [] (S 75 19); mk_seg "skip_all" [] (S 75 25)]))] [I S "if" 76 17] (ETry [] (ECall [] (EPath [] (mk_path false [mk_seg "enresult" [] (S 76 20)])) (S 76 28) [(EPath [] (mk_path false [mk_seg "false" [] (S 76 29)]))] []) (S 76 35)) (S 76 37) [(SExpr (ETry [] (ECall [] (EPath [] (mk_path false [mk_seg "enresult" [] (S 77 21)])) (S 77 29) [(ETuple [] (S 77 30) [] [])] []) (S 77 33)) (Some (S 77 34))); (SExpr (EReturn [] (S 79 21) (Some (ECall [] (EPath [] (mk_path false [mk_seg "Err" [] (S 79 28)])) (S 79 31) [(ETuple [] (S 79 32) [] [])] []))) (Some (S 79 35)))] [] None) None); (SExpr (EIf [] [I S "if" 82 17] (ETry [] (ECall [] (EPath [] (mk_path false [mk_seg "enresult" [] (S 82 20)])) (S 82 28) [(EPath [] (mk_path false [mk_seg "false" [] (S 82 29)]))] []) (S 82 35)) (S 82 37) [(SExpr (EIf [] [I S "if" 83 21] (ETry [] (ECall [] (EPath [] (mk_path false [mk_seg "enresult" [] (S 83 24)])) (S 83 32) [(EPath [] (mk_path false [mk_seg "false" [] (S 83 33)]))] []) (S 83 39)) (S 83 41) [(SExpr (EReturn [] (S 84 25) (Some (EBlock [] [] (S 84 32) [(SExpr (ECall [] (EPath [] (mk_path false [mk_seg "Err" [] (S 84 34)])) (S 84 37) [(ETuple [] (S 84 38) [] [])] []) None)]))) (Some (S 84 43)))] [] None) None); (SExpr (EReturn [mk_attr false (S 87 21) (MPath (mk_path false [mk_seg "hooq" [] (S 87 23); mk_seg "skip" [] (S 87 29)]))] (S 88 21) (Some (EBlock [] [] (S 88 28) [(SExpr (EBlock [mk_attr false (S 89 25) (MPath (mk_path false [mk_seg "hooq" [] (S 89 27); mk_seg "skip" [] (S 89 33)]))] [] (S 90 25) [(SExpr (ECall [] (EPath [] (mk_path false [mk_seg "Err" [] (S 91 29)])) (S 91 32) [(ETuple [] (S 91 33) [] [])] []) None)]) None)]))) (Some (S 93 22)))] [] None) None); (SExpr (ECall [] (EPath [] (mk_path false [mk_seg "Err" [] (S 96 17)])) (S 96 20) [(ETuple [] (S 96 21) [] [])] []) None)]))) None)] [I S "else" 98 11] (Some (EBlock [] [] (S 98 16) [(SExpr (ECall [] (EPath [] (mk_path false [mk_seg "Err" [] (S 99 13)])) (S 99 16) [(ETuple [] (S 99 17) [] [])] []) None)]))) None)] [I S "else" 101 7] (Some (EBlock [] [] (S 101 12) [(SExpr (ECall [] (EPath [] (mk_path false [mk_seg "Err" [] (S 102 9)])) (S 102 12) [(ETuple [] (S 102 13) [] [])] []) None)]))) None)]).
Definition args_special_skip_2 : list meta := let S := at_ "hooq-macros/tests/special/skip.rs" in [].
Definition rec_special_skip_2 : list string :=
  ["fn complex_skip ( ) - > Result < ( ) , ( ) > { let gen_bools = | | enresult ( true ) ; if gen_bools ( ) . inspect ( | _ | { { : : std : : io : :";
   "_print ( format_args ! ( ""tag:\s{0}\n"" , ""1"" ) ) ; } ; } ) ? { if gen_bools ( ) ? { if gen_bools ( ) . inspect ( | _ | { { : : std : : io : : _print (";
   "format_args ! ( ""tag:\s{0}\n"" , ""2"" ) ) ; } ; } ) ? { enresult ( ( ) ) . inspect ( | _ | { { : : std : : io : : _print ( format_args ! ( ""tag:\s{0}\n""";
   ", ""3"" ) ) ; } ; } ) ? ; if enresult ( false ) ? { enresult ( ( ) ) . inspect ( | _ | { { : : std : : io : : _print ( format_args ! ( ""tag:\s{0}\n"" ,";
   """2"" ) ) ; } ; } ) ? ; return { Err ( ( ) ) } . inspect ( | _ | { { : : std : : io : : _print ( format_args ! ( ""tag:\s{0}\n"" , ""2"" ) ) ; } ; } ) ; }";
   "Err ( ( ) ) . inspect ( | _ | { { : : std : : io : : _print ( format_args ! ( ""tag:\s{0}\n"" , ""2"" ) ) ; } ; } ) } else { enresult ( ( ) ) . inspect (";
   "| _ | { { : : std : : io : : _print ( format_args ! ( ""tag:\s{0}\n"" , ""2"" ) ) ; } ; } ) ? ; if enresult ( false ) ? { enresult ( ( ) ) ? ; return Err";
   "( ( ) ) ; } if enresult ( false ) . inspect ( | _ | { { : : std : : io : : _print ( format_args ! ( ""tag:\s{0}\n"" , ""2"" ) ) ; } ; } ) ? { if enresult";
   "( false ) . inspect ( | _ | { { : : std : : io : : _print ( format_args ! ( ""tag:\s{0}\n"" , ""2"" ) ) ; } ; } ) ? { return { Err ( ( ) ) . inspect ( | _";
   "| { { : : std : : io : : _print ( format_args ! ( ""tag:\s{0}\n"" , ""2"" ) ) ; } ; } ) } . inspect ( | _ | { { : : std : : io : : _print ( format_args !";
   "( ""tag:\s{0}\n"" , ""2"" ) ) ; } ; } ) ; } return { { Err ( ( ) ) . inspect ( | _ | { { : : std : : io : : _print ( format_args ! ( ""tag:\s{0}\n"" , ""2"" )";
   ") ; } ; } ) } } ; } Err ( ( ) ) . inspect ( | _ | { { : : std : : io : : _print ( format_args ! ( ""tag:\s{0}\n"" , ""2"" ) ) ; } ; } ) } } else { Err ( (";
   ") ) . inspect ( | _ | { { : : std : : io : : _print ( format_args ! ( ""tag:\s{0}\n"" , ""2"" ) ) ; } ; } ) } } else { Err ( ( ) ) . inspect ( | _ | { { :";
   ": std : : io : : _print ( format_args ! ( ""tag:\s{0}\n"" , ""1"" ) ) ; } ; } ) } . inspect ( | _ | { { : : std : : io : : _print ( format_args ! (";
   """tag:\s{0}\n"" , ""1"" ) ) ; } ; } ) }"].
Definition it_special_skip_3 : item := let S := at_ "hooq-macros/tests/special/skip.rs" in
  (IFn [mk_attr false (S 107 1) (MList (mk_path false [mk_seg "hooq" [] (S 107 3); mk_seg "method" [] (S 107 9)]) Parenth [O S "." 107 16; I S "inspect" 107 17; G S Parenth [O S "|" 107 25; I S "_" 107 26; O S "|" 107 27; G S Brace [I S "println" 108 5; O S "!" 108 12; G S Parenth [L S (LStr "tag: {}") 108 14; O S "," 108 23; O S "$" 108 25; I S "tag" 108 26] 108 13; O S ";" 108 30] 107 29] 107 24] (S 107 15)); mk_attr false (S 110 1) (MNameValue (mk_path false [mk_seg "hooq" [] (S 110 3); mk_seg "tag" [] (S 110 9)]) (VStr "(no tag)" (S 110 15)))] [] (mk_sig "func" (RetPath (mk_path false [mk_seg "Result" [O S "<" 111 20; G S Parenth [] 111 21; O S "," 111 23; G S Parenth [] 111 25; O S ">" 111 27] (S 111 14)])) [I S "fn" 111 1; I S "func" 111 4; G S Parenth [] 111 8; O S "-" 111 11; O S ">" 111 12; I S "Result" 111 14; O S "<" 111 20; G S Parenth [] 111 21; O S "," 111 23; G S Parenth [] 111 25; O S ">" 111 27]) (S 111 29) [(SExpr (ETry [] (ECall [] (EPath [] (mk_path false [mk_seg "skip_target" [] (S 112 5)])) (S 112 16) [] []) (S 112 18)) (Some (S 112 19))); (SExpr (ETry [] (ECall [] (EPath [] (mk_path false [mk_seg "complex_skip" [] (S 114 5)])) (S 114 17) [] []) (S 114 19)) (Some (S 114 20))); (SExpr (ECall [] (EPath [] (mk_path false [mk_seg "Err" [] (S 116 5)])) (S 116 8) [(ETuple [] (S 116 9) [] [])] []) None)]).
Definition args_special_skip_3 : list meta := let S := at_ "hooq-macros/tests/special/skip.rs" in [].
Definition rec_special_skip_3 : list string :=
  ["fn func ( ) - > Result < ( ) , ( ) > { skip_target ( ) . inspect ( | _ | { { : : std : : io : : _print ( format_args ! ( ""tag:\s{0}\n"" , ""(no\stag)"" )";
   ") ; } ; } ) ? ; complex_skip ( ) . inspect ( | _ | { { : : std : : io : : _print ( format_args ! ( ""tag:\s{0}\n"" , ""(no\stag)"" ) ) ; } ; } ) ? ; Err (";
   "( ) ) . inspect ( | _ | { { : : std : : io : : _print ( format_args ! ( ""tag:\s{0}\n"" , ""(no\stag)"" ) ) ; } ; } ) }"].
(** enresult *)
Example recorded_special_skip_0 : expanded su_special_skip args_special_skip_0 it_special_skip_0 = words rec_special_skip_0.
Proof. vm_compute. reflexivity. Qed.
(** skip_target *)
Example recorded_special_skip_1 : expanded su_special_skip args_special_skip_1 it_special_skip_1 = words rec_special_skip_1.
Proof. vm_compute. reflexivity. Qed.
(** complex_skip *)
Example recorded_special_skip_2 : expanded su_special_skip args_special_skip_2 it_special_skip_2 = words rec_special_skip_2.
Proof. vm_compute. reflexivity. Qed.
(** func *)
Example recorded_special_skip_3 : expanded su_special_skip args_special_skip_3 it_special_skip_3 = words rec_special_skip_3.
Proof. vm_compute. reflexivity. Qed.
(** ** hooq-macros/tests/special/skip_detail.rs *)
Definition doc_special_skip_detail : list (string * ftable) := [].
Definition texts_special_skip_detail : list (string * list tt) := let S := at_ "" in [].
Definition strs_special_skip_detail : list (string * string) :=
  [("( no tag )", "(no tag)");
   ("call - 2", "call-2");
   ("range - 1", "range-1");
   ("range - 2", "range-2");
   ("sub scope in expr", "sub scope in expr
");
   ("sub scope in function args .", "sub scope in function args.");
   ("sub scope in macro - inner", "sub scope in macro-inner");
   ("sub scope in macro - outer", "sub scope in macro-outer");
   ("tag : { 0 }", "tag: {0}
");
   ("{ 0 } , { 1 }", "{0}, {1}
")].
Definition ends_special_skip_detail : list (N * N * (N * N * string)) :=
  [(1, 3, (1, 25, "")); (1, 9, (1, 24, "")); (2, 3, (2, 34, "")); (2, 9, (2, 33, "")); (9, 2, (9, 8, "")); (10, 15, (10, 21, "")); (10, 35, (10, 37, "")); (10, 39, (12, 2, "")); (11, 7, (11, 10, "")); (14, 2, (14, 8, "")); (15, 2, (17, 5, "")); (15, 15, (17, 4, "")); (15, 24, (17, 3, "")); (15, 29, (17, 2, "")); (16, 13, (16, 30, "")); (16, 14, (16, 23, """tag: {}""")); (18, 2, (18, 26, "")); (18, 15, (18, 25, """(no tag)""")); (19, 2, (19, 39, "")); (19, 25, (19, 38, "")); (19, 26, (19, 30, """Ok""")); (19, 32, (19, 37, """Err""")); (20, 14, (20, 16, "")); (20, 27, (20, 29, "")); (20, 31, (20, 33, "")); (20, 35, (75, 2, "")); (21, 6, (21, 27, "")); (21, 19, (21, 26, """local""")); (22, 6, (22, 18, "")); (23, 21, (23, 27, "")); (23, 32, (26, 6, "")); (24, 10, (24, 44, "")); (24, 23, (24, 43, """sub scope in local""")); (25, 17, (25, 23, "")); (28, 6, (28, 26, "")); (28, 19, (28, 25, """item""")); (29, 6, (29, 18, "")); (30, 12, (30, 14, "")); (30, 25, (30, 27, "")); (30, 29, (30, 31, "")); (30, 33, (39, 6, "")); (31, 10, (31, 43, "")); (31, 23, (31, 42, """sub scope in item""")); (32, 17, (32, 21, "")); (32, 18, (32, 20, "")); (34, 17, (36, 10, "")); (35, 23, (35, 27, "")); (35, 24, (35, 26, "")); (38, 12, (38, 16, "")); (38, 13, (38, 15, "")); (41, 6, (41, 26, "")); (41, 19, (41, 25, """expr""")); (42, 6, (42, 18, "")); (43, 5, (52, 6, "")); (44, 17, (44, 38, "")); (44, 18, (44, 37, """sub scope in expr""")); (46, 20, (46, 27, "")); (46, 29, (49, 10, "")); (47, 14, (47, 26, "")); (48, 22, (48, 51, "")); (48, 23, (48, 50, "")); (48, 33, (48, 47, "")); (48, 42, (48, 46, "")); (48, 43, (48, 45, "")); (51, 17, (51, 21, "")); (51, 18, (51, 20, "")); (54, 6, (54, 27, "")); (54, 19, (54, 26, """macro""")); (55, 6, (55, 18, "")); (56, 13, (60, 8, "")); (56, 14, (56, 22, """{}, {}""")); (56, 32, (56, 36, "")); (56, 39, (60, 6, "")); (57, 17, (57, 21, "")); (57, 18, (57, 20, "")); (59, 23, (59, 25, "")); (59, 30, (59, 34, "")); (62, 6, (62, 27, "")); (62, 19, (62, 26, """macro""")); (63, 13, (72, 6, "")); (64, 9, (64, 17, """{}, {}""")); (65, 17, (65, 21, "")); (66, 10, (66, 22, "")); (67, 9, (71, 10, "")); (68, 21, (68, 25, "")); (68, 22, (68, 24, "")); (70, 27, (70, 29, "")); (70, 34, (70, 38, "")); (74, 8, (74, 12, "")); (74, 9, (74, 11, "")); (77, 2, (77, 8, "")); (78, 2, (80, 5, "")); (78, 15, (80, 4, "")); (78, 24, (80, 3, "")); (78, 29, (80, 2, "")); (79, 13, (79, 30, "")); (79, 14, (79, 23, """tag: {}""")); (81, 2, (81, 26, "")); (81, 15, (81, 25, """(no tag)""")); (82, 2, (82, 39, "")); (82, 25, (82, 38, "")); (82, 26, (82, 30, """Ok""")); (82, 32, (82, 37, """Err""")); (83, 13, (83, 15, "")); (83, 26, (83, 28, "")); (83, 30, (83, 32, "")); (83, 34, (216, 2, "")); (88, 6, (88, 26, "")); (88, 19, (88, 25, """impl""")); (89, 6, (89, 18, "")); (90, 13, (117, 6, "")); (91, 10, (91, 43, "")); (91, 23, (91, 42, """sub scope in impl""")); (92, 19, (92, 21, "")); (92, 32, (92, 34, "")); (92, 36, (92, 38, "")); (92, 40, (94, 10, "")); (93, 16, (93, 20, "")); (93, 17, (93, 19, "")); (96, 10, (96, 43, "")); (96, 23, (96, 42, """sub scope in impl""")); (97, 10, (97, 22, "")); (98, 20, (98, 22, "")); (98, 33, (98, 35, "")); (98, 37, (98, 39, "")); (98, 41, (100, 10, "")); (99, 16, (99, 20, "")); (99, 17, (99, 19, "")); (102, 10, (102, 43, "")); (102, 23, (102, 42, """sub scope in impl""")); (103, 10, (103, 22, "")); (104, 13, (108, 10, "")); (105, 24, (105, 31, "")); (105, 42, (105, 44, "")); (105, 46, (105, 48, "")); (105, 50, (107, 14, "")); (106, 20, (106, 24, "")); (106, 21, (106, 23, "")); (110, 10, (110, 43, "")); (110, 23, (110, 42, """sub scope in impl""")); (111, 13, (116, 10, "")); (112, 14, (112, 26, "")); (113, 24, (113, 31, "")); (113, 42, (113, 44, "")); (113, 46, (113, 48, "")); (113, 50, (115, 14, "")); (114, 20, (114, 24, "")); (114, 21, (114, 23, "")); (119, 6, (119, 25, "")); (119, 19, (119, 24, """mod""")); (120, 6, (120, 18, "")); (121, 11, (132, 6, "")); (122, 10, (122, 42, "")); (122, 23, (122, 41, """sub scope in mod""")); (123, 19, (123, 21, "")); (123, 32, (123, 34, "")); (123, 36, (123, 38, "")); (123, 40, (125, 10, "")); (124, 16, (124, 20, "")); (124, 17, (124, 19, "")); (127, 10, (127, 42, "")); (127, 23, (127, 41, """sub scope in mod""")); (128, 10, (128, 22, "")); (129, 20, (129, 22, "")); (129, 33, (129, 35, "")); (129, 37, (129, 39, "")); (129, 41, (131, 10, "")); (130, 16, (130, 20, "")); (130, 17, (130, 19, "")); (134, 6, (134, 27, "")); (134, 19, (134, 26, """const""")); (135, 6, (135, 18, "")); (136, 23, (145, 6, "")); (137, 35, (137, 37, "")); (137, 39, (142, 10, "")); (138, 14, (138, 48, "")); (138, 27, (138, 47, """sub scope in const""")); (139, 31, (139, 39, "")); (141, 15, (141, 20, "")); (147, 6, (147, 28, "")); (147, 19, (147, 27, """static""")); (148, 6, (148, 18, "")); (149, 46, (157, 7, "")); (149, 50, (157, 6, "")); (150, 9, (155, 11, "")); (150, 28, (150, 30, "")); (150, 32, (155, 10, "")); (151, 14, (151, 49, "")); (151, 27, (151, 48, """sub scope in static""")); (152, 31, (152, 39, "")); (154, 15, (154, 20, "")); (155, 11, (155, 13, "")); (156, 19, (156, 22, "")); (159, 6, (159, 27, "")); (159, 19, (159, 26, """trait""")); (160, 6, (160, 18, "")); (161, 14, (188, 6, "")); (162, 10, (162, 44, "")); (162, 23, (162, 43, """sub scope in trait""")); (163, 25, (163, 27, "")); (163, 38, (163, 40, "")); (163, 42, (163, 44, "")); (163, 46, (165, 10, "")); (164, 16, (164, 20, "")); (164, 17, (164, 19, "")); (167, 10, (167, 44, "")); (167, 23, (167, 43, """sub scope in trait""")); (168, 10, (168, 22, "")); (169, 26, (169, 28, "")); (169, 39, (169, 41, "")); (169, 43, (169, 45, "")); (169, 47, (171, 10, "")); (170, 16, (170, 20, "")); (170, 17, (170, 19, "")); (173, 10, (173, 43, "")); (173, 23, (173, 42, """sub scope in impl""")); (174, 10, (174, 22, "")); (175, 13, (179, 10, "")); (176, 30, (176, 37, "")); (176, 48, (176, 50, "")); (176, 52, (176, 54, "")); (176, 56, (178, 14, "")); (177, 20, (177, 24, "")); (177, 21, (177, 23, "")); (181, 10, (181, 43, "")); (181, 23, (181, 42, """sub scope in impl""")); (182, 13, (187, 10, "")); (183, 14, (183, 26, "")); (184, 30, (184, 37, "")); (184, 48, (184, 50, "")); (184, 52, (184, 54, "")); (184, 56, (186, 14, "")); (185, 20, (185, 24, "")); (185, 21, (185, 23, "")); (190, 13, (213, 6, "")); (193, 10, (193, 31, "")); (193, 23, (193, 30, """macro""")); (194, 10, (194, 22, "")); (195, 13, (199, 10, "")); (196, 25, (196, 27, "")); (196, 38, (196, 40, "")); (196, 42, (196, 44, "")); (196, 46, (198, 14, "")); (197, 20, (197, 24, "")); (197, 21, (197, 23, "")); (201, 10, (201, 31, "")); (201, 23, (201, 30, """macro""")); (202, 13, (212, 10, "")); (203, 14, (203, 53, "")); (203, 20, (203, 52, "")); (204, 27, (204, 29, "")); (204, 40, (204, 42, "")); (204, 44, (204, 46, "")); (204, 48, (211, 14, "")); (205, 18, (205, 30, "")); (206, 19, (210, 20, "")); (206, 20, (210, 18, "")); (207, 29, (207, 33, "")); (207, 30, (207, 32, "")); (209, 30, (209, 32, "")); (209, 34, (209, 36, "")); (209, 42, (209, 46, "")); (209, 43, (209, 45, "")); (215, 8, (215, 12, "")); (215, 9, (215, 11, "")); (218, 2, (218, 8, "")); (219, 2, (221, 5, "")); (219, 15, (221, 4, "")); (219, 24, (221, 3, "")); (219, 29, (221, 2, "")); (220, 13, (220, 30, "")); (220, 14, (220, 23, """tag: {}""")); (222, 2, (222, 26, "")); (222, 15, (222, 25, """(no tag)""")); (223, 2, (223, 39, "")); (223, 25, (223, 38, "")); (223, 26, (223, 30, """Ok""")); (223, 32, (223, 37, """Err""")); (224, 13, (224, 15, "")); (224, 26, (224, 28, "")); (224, 30, (224, 32, "")); (224, 34, (567, 2, "")); (225, 6, (225, 25, "")); (225, 19, (225, 24, """try""")); (226, 13, (229, 6, "")); (227, 10, (227, 22, "")); (228, 17, (228, 21, "")); (228, 18, (228, 20, "")); (231, 13, (238, 6, "")); (232, 10, (232, 29, "")); (232, 23, (232, 28, """try""")); (233, 10, (233, 22, "")); (234, 17, (237, 12, "")); (234, 18, (237, 11, "")); (234, 27, (234, 31, "")); (234, 28, (234, 30, "")); (234, 34, (237, 10, "")); (235, 14, (235, 57, "")); (235, 27, (235, 56, """sub scope in function args.""")); (236, 21, (236, 25, "")); (236, 22, (236, 24, "")); (240, 6, (240, 28, "")); (240, 19, (240, 27, """return""")); (241, 34, (241, 42, "")); (241, 35, (241, 37, "")); (241, 39, (241, 41, "")); (241, 44, (241, 46, "")); (241, 48, (247, 6, "")); (242, 14, (245, 10, "")); (243, 14, (243, 26, "")); (244, 22, (244, 58, "")); (244, 23, (244, 57, "")); (244, 32, (244, 36, "")); (244, 33, (244, 35, "")); (244, 39, (244, 56, "")); (244, 49, (244, 53, "")); (244, 50, (244, 52, "")); (246, 11, (246, 21, "")); (246, 12, (246, 20, "")); (246, 13, (246, 15, "")); (246, 17, (246, 19, "")); (249, 6, (249, 27, "")); (249, 19, (249, 26, """array""")); (250, 6, (250, 18, "")); (251, 13, (254, 7, "")); (251, 22, (251, 25, "")); (251, 36, (251, 39, "")); (251, 42, (254, 6, "")); (252, 10, (252, 44, "")); (252, 23, (252, 43, """sub scope in array""")); (253, 17, (253, 20, "")); (262, 6, (262, 27, "")); (262, 19, (262, 26, """block""")); (263, 14, (263, 26, "")); (264, 5, (268, 6, "")); (265, 25, (265, 40, "")); (265, 34, (265, 38, "")); (265, 35, (265, 37, "")); (267, 17, (267, 42, "")); (267, 26, (267, 40, "")); (267, 35, (267, 39, "")); (267, 36, (267, 38, "")); (270, 6, (270, 26, "")); (270, 19, (270, 25, """call""")); (271, 6, (271, 18, "")); (272, 13, (275, 11, "")); (272, 22, (275, 9, "")); (272, 31, (275, 7, "")); (272, 32, (275, 6, "")); (273, 10, (273, 43, "")); (273, 23, (273, 42, """sub scope in call""")); (274, 17, (274, 21, "")); (274, 18, (274, 20, "")); (277, 6, (277, 28, "")); (277, 19, (277, 27, """call-2""")); (278, 6, (278, 18, "")); (279, 5, (289, 12, "")); (279, 6, (288, 6, "")); (280, 17, (284, 11, "")); (280, 21, (284, 10, "")); (281, 21, (281, 25, "")); (281, 22, (281, 24, "")); (283, 21, (283, 25, "")); (283, 22, (283, 24, "")); (285, 9, (287, 10, "")); (286, 21, (286, 25, "")); (286, 22, (286, 24, "")); (289, 12, (289, 14, "")); (291, 6, (291, 26, "")); (291, 19, (291, 25, """cast""")); (292, 14, (292, 26, "")); (293, 5, (293, 39, "")); (293, 14, (293, 18, "")); (293, 21, (293, 38, "")); (293, 31, (293, 35, "")); (293, 32, (293, 34, "")); (295, 14, (295, 37, "")); (295, 27, (295, 36, """closure""")); (296, 6, (296, 18, "")); (297, 25, (297, 27, "")); (297, 29, (297, 31, "")); (297, 33, (308, 6, "")); (298, 10, (298, 46, "")); (298, 23, (298, 45, """sub scope in closure""")); (299, 17, (299, 21, "")); (299, 18, (299, 20, "")); (301, 25, (301, 40, "")); (301, 34, (301, 38, "")); (301, 35, (301, 37, "")); (303, 14, (305, 10, "")); (304, 23, (304, 27, "")); (304, 24, (304, 26, "")); (307, 17, (307, 42, "")); (307, 26, (307, 40, "")); (307, 35, (307, 39, "")); (307, 36, (307, 38, "")); (310, 6, (310, 33, "")); (310, 19, (310, 32, """const block""")); (311, 6, (311, 18, "")); (312, 15, (312, 17, "")); (312, 26, (319, 6, "")); (313, 20, (318, 10, "")); (314, 14, (314, 54, "")); (314, 27, (314, 53, """sub scope in const block""")); (315, 21, (315, 25, "")); (315, 22, (315, 24, "")); (317, 22, (317, 24, "")); (317, 26, (317, 28, "")); (317, 34, (317, 38, "")); (317, 35, (317, 37, "")); (321, 18, (326, 6, "")); (322, 10, (322, 25, "")); (322, 16, (322, 24, "")); (323, 16, (323, 18, "")); (324, 10, (324, 25, "")); (324, 16, (324, 24, "")); (325, 17, (325, 19, "")); (331, 14, (331, 36, "")); (331, 27, (331, 35, """struct""")); (332, 6, (332, 18, "")); (333, 11, (344, 6, "")); (334, 16, (338, 16, "")); (334, 17, (337, 11, "")); (334, 26, (334, 30, "")); (334, 27, (334, 29, "")); (334, 33, (337, 10, "")); (335, 14, (335, 55, "")); (335, 27, (335, 54, """sub scope in struct field""")); (336, 21, (336, 25, "")); (336, 22, (336, 24, "")); (339, 17, (343, 16, "")); (339, 18, (342, 11, "")); (339, 27, (339, 31, "")); (339, 28, (339, 30, "")); (339, 34, (342, 10, "")); (340, 14, (340, 55, "")); (340, 27, (340, 54, """sub scope in struct field""")); (341, 21, (341, 25, "")); (341, 22, (341, 24, "")); (346, 14, (346, 35, "")); (346, 27, (346, 34, """field""")); (347, 11, (359, 6, "")); (348, 10, (348, 22, "")); (349, 16, (353, 16, "")); (349, 17, (352, 11, "")); (349, 26, (349, 30, "")); (349, 27, (349, 29, "")); (349, 33, (352, 10, "")); (350, 14, (350, 55, "")); (350, 27, (350, 54, """sub scope in struct field""")); (351, 21, (351, 25, "")); (351, 22, (351, 24, "")); (354, 17, (358, 16, "")); (354, 18, (357, 11, "")); (354, 27, (354, 31, "")); (354, 28, (354, 30, "")); (354, 34, (357, 10, "")); (355, 14, (355, 55, "")); (355, 27, (355, 54, """sub scope in struct field""")); (356, 21, (356, 25, "")); (356, 22, (356, 24, "")); (361, 6, (361, 30, "")); (361, 19, (361, 29, """for_loop""")); (362, 6, (362, 18, "")); (363, 22, (366, 8, "")); (363, 23, (366, 7, "")); (363, 24, (366, 6, "")); (364, 10, (364, 52, "")); (364, 23, (364, 51, """sub scope in for loop expr""")); (365, 17, (365, 21, "")); (365, 18, (365, 20, "")); (366, 10, (369, 6, "")); (367, 10, (367, 47, "")); (367, 23, (367, 46, """sub scope in for loop""")); (368, 17, (368, 21, "")); (368, 18, (368, 20, "")); (373, 6, (373, 24, "")); (373, 19, (373, 23, """if""")); (374, 6, (374, 18, "")); (375, 16, (378, 7, "")); (375, 17, (378, 6, "")); (376, 10, (376, 51, "")); (376, 23, (376, 50, """sub scope in if condition""")); (377, 17, (377, 23, "")); (378, 9, (382, 6, "")); (379, 10, (379, 41, "")); (379, 23, (379, 40, """sub scope in if""")); (380, 17, (380, 21, "")); (380, 18, (380, 20, "")); (382, 23, (385, 7, "")); (382, 24, (385, 6, "")); (383, 10, (383, 51, "")); (383, 23, (383, 50, """sub scope in if condition""")); (384, 17, (384, 23, "")); (385, 9, (388, 6, "")); (386, 10, (386, 46, "")); (386, 23, (386, 45, """sub scope in else if""")); (387, 17, (387, 21, "")); (387, 18, (387, 20, "")); (388, 12, (391, 6, "")); (389, 10, (389, 43, "")); (389, 23, (389, 42, """sub scope in else""")); (390, 17, (390, 21, "")); (390, 18, (390, 20, "")); (393, 14, (393, 35, "")); (393, 27, (393, 34, """index""")); (394, 6, (394, 18, "")); (395, 13, (395, 49, "")); (395, 14, (395, 48, "")); (395, 23, (395, 27, "")); (395, 24, (395, 26, "")); (395, 30, (395, 47, "")); (395, 40, (395, 44, "")); (395, 41, (395, 43, "")); (395, 50, (395, 87, "")); (395, 51, (395, 84, "")); (395, 60, (395, 63, "")); (395, 66, (395, 83, "")); (395, 76, (395, 80, "")); (395, 77, (395, 79, "")); (397, 6, (397, 25, "")); (397, 19, (397, 24, """let""")); (398, 15, (398, 19, "")); (398, 16, (398, 18, "")); (398, 30, (398, 34, "")); (398, 31, (398, 33, "")); (399, 13, (399, 25, "")); (400, 16, (400, 20, "")); (400, 17, (400, 19, "")); (400, 31, (400, 79, "")); (400, 32, (400, 76, "")); (400, 41, (400, 55, "")); (400, 50, (400, 54, "")); (400, 51, (400, 53, "")); (400, 58, (400, 75, "")); (400, 68, (400, 72, "")); (400, 69, (400, 71, "")); (401, 5, (403, 6, "")); (402, 17, (402, 21, "")); (402, 18, (402, 20, "")); (407, 14, (407, 34, "")); (407, 27, (407, 33, """loop""")); (408, 6, (408, 18, "")); (409, 10, (417, 6, "")); (410, 18, (412, 10, "")); (411, 27, (411, 31, "")); (411, 28, (411, 30, "")); (416, 17, (416, 21, "")); (416, 18, (416, 20, "")); (419, 14, (419, 41, "")); (419, 27, (419, 40, """macro-outer""")); (420, 6, (420, 18, "")); (421, 9, (424, 7, "")); (421, 18, (421, 21, "")); (421, 32, (421, 35, "")); (421, 38, (424, 6, "")); (422, 10, (422, 50, "")); (422, 23, (422, 49, """sub scope in macro-outer""")); (423, 17, (423, 20, "")); (426, 14, (426, 41, "")); (426, 27, (426, 40, """macro-inner""")); (427, 9, (433, 6, "")); (428, 10, (428, 22, "")); (429, 13, (432, 11, "")); (429, 22, (429, 25, "")); (429, 36, (429, 39, "")); (429, 42, (432, 10, "")); (430, 14, (430, 54, "")); (430, 27, (430, 53, """sub scope in macro-inner""")); (431, 21, (431, 24, "")); (435, 6, (435, 31, "")); (435, 12, (435, 30, "")); (436, 14, (436, 35, "")); (436, 27, (436, 34, """match""")); (437, 6, (437, 18, "")); (438, 19, (441, 8, "")); (438, 24, (441, 7, "")); (438, 25, (441, 6, "")); (439, 10, (439, 49, "")); (439, 23, (439, 48, """sub scope in match expr""")); (440, 17, (440, 21, "")); (440, 18, (440, 20, "")); (441, 10, (452, 6, "")); (442, 13, (442, 17, "")); (442, 14, (442, 16, "")); (442, 29, (442, 35, "")); (442, 40, (445, 10, "")); (443, 21, (443, 25, "")); (443, 22, (443, 24, "")); (444, 21, (444, 25, "")); (444, 22, (444, 24, "")); (446, 13, (446, 17, "")); (446, 14, (446, 16, "")); (446, 21, (449, 10, "")); (447, 21, (447, 25, "")); (447, 22, (447, 24, "")); (448, 21, (448, 25, "")); (448, 22, (448, 24, "")); (450, 25, (450, 31, "")); (450, 39, (450, 43, "")); (450, 40, (450, 42, "")); (451, 25, (451, 29, "")); (451, 26, (451, 28, "")); (454, 16, (458, 6, "")); (455, 18, (455, 32, "")); (455, 29, (455, 31, "")); (455, 50, (455, 52, "")); (455, 54, (457, 10, "")); (456, 15, (456, 21, "")); (460, 19, (463, 6, "")); (461, 16, (461, 18, "")); (462, 17, (462, 19, "")); (465, 6, (465, 33, "")); (465, 19, (465, 32, """method_call""")); (466, 6, (466, 18, "")); (467, 13, (467, 28, "")); (467, 22, (467, 26, "")); (467, 23, (467, 25, "")); (467, 36, (472, 7, "")); (467, 37, (472, 6, "")); (468, 10, (468, 50, "")); (468, 23, (468, 49, """sub scope in method call""")); (469, 17, (469, 21, "")); (469, 18, (469, 20, "")); (471, 17, (471, 21, "")); (471, 18, (471, 20, "")); (474, 14, (474, 35, "")); (474, 27, (474, 34, """paren""")); (475, 6, (475, 18, "")); (476, 5, (476, 45, "")); (476, 14, (476, 43, "")); (476, 15, (476, 42, "")); (476, 25, (476, 39, "")); (476, 34, (476, 38, "")); (476, 35, (476, 37, "")); (481, 14, (481, 37, "")); (481, 27, (481, 36, """range-1""")); (482, 6, (482, 18, "")); (483, 13, (488, 6, "")); (484, 9, (486, 11, "")); (484, 18, (484, 21, "")); (484, 24, (486, 10, "")); (485, 21, (485, 25, "")); (485, 22, (485, 24, "")); (489, 19, (494, 10, "")); (490, 13, (492, 15, "")); (490, 22, (490, 25, "")); (490, 28, (492, 14, "")); (491, 25, (491, 29, "")); (491, 26, (491, 28, "")); (496, 14, (496, 37, "")); (496, 27, (496, 36, """range-2""")); (497, 13, (502, 6, "")); (498, 9, (500, 11, "")); (498, 18, (498, 21, "")); (498, 24, (500, 10, "")); (499, 21, (499, 25, "")); (499, 22, (499, 24, "")); (503, 11, (509, 12, "")); (503, 13, (503, 25, "")); (504, 17, (509, 10, "")); (505, 13, (507, 15, "")); (505, 22, (505, 25, "")); (505, 28, (507, 14, "")); (506, 25, (506, 29, "")); (506, 26, (506, 28, "")); (513, 14, (513, 36, "")); (513, 27, (513, 35, """repeat""")); (514, 6, (514, 18, "")); (515, 5, (523, 7, "")); (515, 14, (515, 51, "")); (515, 15, (515, 48, "")); (515, 24, (515, 27, "")); (515, 30, (515, 47, "")); (515, 40, (515, 44, "")); (515, 41, (515, 43, "")); (515, 54, (523, 6, "")); (516, 14, (516, 16, "")); (516, 27, (516, 29, "")); (516, 31, (516, 33, "")); (516, 35, (520, 10, "")); (517, 21, (517, 25, "")); (517, 22, (517, 24, "")); (519, 16, (519, 20, "")); (519, 17, (519, 19, "")); (529, 14, (529, 35, "")); (529, 27, (529, 34, """tuple""")); (530, 6, (530, 18, "")); (531, 5, (534, 7, "")); (531, 14, (531, 18, "")); (531, 15, (531, 17, "")); (531, 21, (534, 6, "")); (532, 10, (532, 44, "")); (532, 23, (532, 43, """sub scope in tuple""")); (533, 17, (533, 21, "")); (533, 18, (533, 20, "")); (536, 14, (536, 35, "")); (536, 27, (536, 34, """unary""")); (537, 6, (537, 18, "")); (538, 14, (538, 54, "")); (538, 15, (538, 51, "")); (538, 24, (538, 30, "")); (538, 33, (538, 50, "")); (538, 43, (538, 47, "")); (538, 44, (538, 46, "")); (540, 14, (540, 36, "")); (540, 27, (540, 35, """unsafe""")); (541, 6, (541, 18, "")); (542, 12, (551, 6, "")); (543, 37, (543, 47, "")); (543, 61, (543, 63, "")); (543, 65, (545, 10, "")); (544, 15, (544, 22, "")); (547, 10, (547, 45, "")); (547, 23, (547, 44, """sub scope in unsafe""")); (548, 24, (548, 28, "")); (548, 25, (548, 27, "")); (550, 24, (550, 28, "")); (550, 25, (550, 27, "")); (553, 6, (553, 27, "")); (553, 19, (553, 26, """while""")); (554, 6, (554, 18, "")); (555, 11, (557, 7, "")); (555, 20, (555, 27, "")); (555, 30, (557, 6, "")); (556, 17, (556, 21, "")); (556, 18, (556, 20, "")); (559, 5, (562, 6, "")); (560, 10, (560, 44, "")); (560, 23, (560, 43, """sub scope in while""")); (561, 17, (561, 21, "")); (561, 18, (561, 20, "")); (566, 8, (566, 12, "")); (566, 9, (566, 11, "")); (569, 2, (569, 8, "")); (570, 2, (572, 5, "")); (570, 15, (572, 4, "")); (570, 24, (572, 3, "")); (570, 29, (572, 2, "")); (571, 13, (571, 30, "")); (571, 14, (571, 23, """tag: {}""")); (573, 2, (573, 26, "")); (573, 15, (573, 25, """(no tag)""")); (574, 2, (574, 39, "")); (574, 25, (574, 38, "")); (574, 26, (574, 30, """Ok""")); (574, 32, (574, 37, """Err""")); (575, 31, (575, 33, "")); (575, 44, (575, 46, "")); (575, 48, (575, 50, "")); (575, 52, (598, 2, "")); (576, 6, (576, 35, "")); (576, 19, (576, 34, """async & await""")); (577, 6, (577, 18, "")); (578, 19, (594, 6, "")); (579, 10, (579, 44, "")); (579, 23, (579, 43, """sub scope in async""")); (580, 17, (583, 11, "")); (580, 24, (583, 10, "")); (581, 21, (581, 31, "")); (581, 28, (581, 30, "")); (582, 21, (582, 25, "")); (582, 22, (582, 24, "")); (586, 10, (586, 22, "")); (587, 17, (590, 11, "")); (587, 24, (590, 10, "")); (588, 21, (588, 25, "")); (588, 22, (588, 24, "")); (589, 21, (589, 25, "")); (589, 22, (589, 24, "")); (593, 12, (593, 16, "")); (593, 13, (593, 15, "")); (597, 8, (597, 12, "")); (597, 9, (597, 11, "")); (600, 2, (600, 8, "")); (601, 2, (603, 5, "")); (601, 15, (603, 4, "")); (601, 24, (603, 3, "")); (601, 29, (603, 2, "")); (602, 13, (602, 30, "")); (602, 14, (602, 23, """tag: {}""")); (604, 2, (604, 39, "")); (604, 25, (604, 38, "")); (604, 26, (604, 30, """Ok""")); (604, 32, (604, 37, """Err""")); (605, 16, (605, 18, "")); (605, 29, (605, 31, "")); (605, 33, (605, 35, "")); (605, 37, (621, 2, "")); (606, 19, (606, 21, "")); (606, 23, (606, 25, "")); (606, 30, (606, 55, "")); (606, 43, (606, 54, """last ok 1""")); (607, 6, (607, 18, "")); (608, 5, (610, 6, "")); (609, 12, (609, 16, "")); (609, 13, (609, 15, "")); (612, 19, (612, 21, "")); (612, 23, (612, 25, "")); (612, 30, (612, 55, "")); (612, 43, (612, 54, """last ok 2""")); (613, 5, (616, 6, "")); (614, 10, (614, 22, "")); (615, 12, (615, 16, "")); (615, 13, (615, 15, "")); (618, 6, (618, 31, "")); (618, 19, (618, 30, """last ok 3""")); (619, 6, (619, 18, "")); (620, 8, (620, 12, "")); (620, 9, (620, 11, "")); (623, 2, (623, 15, "")); (624, 14, (624, 16, "")); (624, 17, (630, 2, "")); (625, 15, (625, 17, "")); (625, 28, (625, 30, "")); (626, 14, (626, 16, "")); (626, 27, (626, 29, "")); (627, 14, (627, 16, "")); (627, 27, (627, 29, "")); (628, 26, (628, 28, "")); (628, 45, (628, 47, "")); (629, 17, (629, 19, "")); (629, 30, (629, 32, ""))].
Definition su_special_skip_detail : setup := mk_setup (mk_features false false true false false "hooq") doc_special_skip_detail texts_special_skip_detail strs_special_skip_detail [] ends_special_skip_detail "skip_detail".
Definition it_special_skip_detail_0 : item := let S := at_ "hooq-macros/tests/special/skip_detail.rs" in
  (IFn [] [] (mk_sig "enresult" (RetPath (mk_path false [mk_seg "Result" [O S "<" 10 31; I S "T" 10 32; O S "," 10 33; G S Parenth [] 10 35; O S ">" 10 37] (S 10 25)])) [I S "fn" 10 1; I S "enresult" 10 4; O S "<" 10 12; I S "T" 10 13; O S ">" 10 14; G S Parenth [I S "t" 10 16; O S ":" 10 17; I S "T" 10 19] 10 15; O S "-" 10 22; O S ">" 10 23; I S "Result" 10 25; O S "<" 10 31; I S "T" 10 32; O S "," 10 33; G S Parenth [] 10 35; O S ">" 10 37]) (S 10 39) [(SExpr (ECall [] (EPath [] (mk_path false [mk_seg "Ok" [] (S 11 5)])) (S 11 7) [(EPath [] (mk_path false [mk_seg "t" [] (S 11 8)]))] []) None)]).
Definition args_special_skip_detail_0 : list meta := let S := at_ "hooq-macros/tests/special/skip_detail.rs" in [].
Definition rec_special_skip_detail_0 : list string :=
  ["fn enresult < T > ( t : T ) - > Result < T , ( ) > { Ok ( t ) }"].
Definition it_special_skip_detail_1 : item := let S := at_ "hooq-macros/tests/special/skip_detail.rs" in
  (IFn [mk_attr false (S 15 1) (MList (mk_path false [mk_seg "hooq" [] (S 15 3); mk_seg "method" [] (S 15 9)]) Parenth [O S "." 15 16; I S "inspect" 15 17; G S Parenth [O S "|" 15 25; I S "_" 15 26; O S "|" 15 27; G S Brace [I S "println" 16 5; O S "!" 16 12; G S Parenth [L S (LStr "tag: {}") 16 14; O S "," 16 23; O S "$" 16 25; I S "tag" 16 26] 16 13; O S ";" 16 30] 15 29] 15 24] (S 15 15)); mk_attr false (S 18 1) (MNameValue (mk_path false [mk_seg "hooq" [] (S 18 3); mk_seg "tag" [] (S 18 9)]) (VStr "(no tag)" (S 18 15))); mk_attr false (S 19 1) (MList (mk_path false [mk_seg "hooq" [] (S 19 3); mk_seg "tail_expr_idents" [] (S 19 9)]) Parenth [L S (LStr "Ok") 19 26; O S "," 19 30; L S (LStr "Err") 19 32] (S 19 25))] [] (mk_sig "skip_stmts" (RetPath (mk_path false [mk_seg "Result" [O S "<" 20 26; G S Parenth [] 20 27; O S "," 20 29; G S Parenth [] 20 31; O S ">" 20 33] (S 20 20)])) [I S "fn" 20 1; I S "skip_stmts" 20 4; G S Parenth [] 20 14; O S "-" 20 17; O S ">" 20 18; I S "Result" 20 20; O S "<" 20 26; G S Parenth [] 20 27; O S "," 20 29; G S Parenth [] 20 31; O S ">" 20 33]) (S 20 35) [(SLocalInit [mk_attr false (S 21 5) (MNameValue (mk_path false [mk_seg "hooq" [] (S 21 7); mk_seg "tag" [] (S 21 13)]) (VStr "local" (S 21 19))); mk_attr false (S 22 5) (MPath (mk_path false [mk_seg "hooq" [] (S 22 7); mk_seg "skip" [] (S 22 13)]))] [I S "let" 23 5; I S "_" 23 9; O S "=" 23 11] (EBinary [] (ETry [] (ECall [] (EPath [] (mk_path false [mk_seg "enresult" [] (S 23 13)])) (S 23 21) [(EPath [] (mk_path false [mk_seg "true" [] (S 23 22)]))] []) (S 23 27)) [O S "&" 23 29; O S "&" 23 30] (EBlock [] [] (S 23 32) [(SExpr (ETry [mk_attr false (S 24 9) (MNameValue (mk_path false [mk_seg "hooq" [] (S 24 11); mk_seg "tag" [] (S 24 17)]) (VStr "sub scope in local" (S 24 23)))] (ECall [] (EPath [] (mk_path false [mk_seg "enresult" [] (S 25 9)])) (S 25 17) [(EPath [] (mk_path false [mk_seg "true" [] (S 25 18)]))] []) (S 25 23)) None)])) [] None [O S ";" 26 6]); (SItem (IFn [mk_attr false (S 28 5) (MNameValue (mk_path false [mk_seg "hooq" [] (S 28 7); mk_seg "tag" [] (S 28 13)]) (VStr "item" (S 28 19))); mk_attr false (S 29 5) (MPath (mk_path false [mk_seg "hooq" [] (S 29 7); mk_seg "skip" [] (S 29 13)]))] [] (mk_sig "_fnc" (RetPath (mk_path false [mk_seg "Result" [O S "<" 30 24; G S Parenth [] 30 25; O S "," 30 27; G S Parenth [] 30 29; O S ">" 30 31] (S 30 18)])) [I S "fn" 30 5; I S "_fnc" 30 8; G S Parenth [] 30 12; O S "-" 30 15; O S ">" 30 16; I S "Result" 30 18; O S "<" 30 24; G S Parenth [] 30 25; O S "," 30 27; G S Parenth [] 30 29; O S ">" 30 31]) (S 30 33) [(SExpr (ETry [mk_attr false (S 31 9) (MNameValue (mk_path false [mk_seg "hooq" [] (S 31 11); mk_seg "tag" [] (S 31 17)]) (VStr "sub scope in item" (S 31 23)))] (ECall [] (EPath [] (mk_path false [mk_seg "enresult" [] (S 32 9)])) (S 32 17) [(ETuple [] (S 32 18) [] [])] []) (S 32 21)) (Some (S 32 22))); (SExpr (EIf [] [I S "if" 34 9] (EPath [] (mk_path false [mk_seg "true" [] (S 34 12)])) (S 34 17) [(SExpr (EReturn [] (S 35 13) (Some (ECall [] (EPath [] (mk_path false [mk_seg "Err" [] (S 35 20)])) (S 35 23) [(ETuple [] (S 35 24) [] [])] []))) (Some (S 35 27)))] [] None) None); (SExpr (ECall [] (EPath [] (mk_path false [mk_seg "Err" [] (S 38 9)])) (S 38 12) [(ETuple [] (S 38 13) [] [])] []) None)])); (SExpr (ETry [mk_attr false (S 41 5) (MNameValue (mk_path false [mk_seg "hooq" [] (S 41 7); mk_seg "tag" [] (S 41 13)]) (VStr "expr" (S 41 19))); mk_attr false (S 42 5) (MPath (mk_path false [mk_seg "hooq" [] (S 42 7); mk_seg "skip" [] (S 42 13)]))] (EBlock [] [] (S 43 5) [(SMacro [] (Mac (mk_path false [mk_seg "println" [] (S 44 9)]) Parenth (S 44 17) [L S (LStr "sub scope in expr") 44 18] (Some [VExpr (ELit [] (LStr "sub scope in expr") (S 44 18)) []])) [O S ";" 44 38]); (SExpr (EIf [] [I S "if" 46 9] (ETry [] (ECall [] (EPath [] (mk_path false [mk_seg "enresult" [] (S 46 12)])) (S 46 20) [(EPath [] (mk_path false [mk_seg "false" [] (S 46 21)]))] []) (S 46 27)) (S 46 29) [(SExpr (EReturn [mk_attr false (S 47 13) (MPath (mk_path false [mk_seg "hooq" [] (S 47 15); mk_seg "skip" [] (S 47 21)]))] (S 48 13) (Some (ETry [] (ECall [] (EPath [] (mk_path false [mk_seg "Ok" [] (S 48 20)])) (S 48 22) [(EBlock [] [] (S 48 23) [(SExpr (ETry [] (ECall [] (EPath [] (mk_path false [mk_seg "enresult" [] (S 48 25)])) (S 48 33) [(ECall [] (EPath [] (mk_path false [mk_seg "enresult" [] (S 48 34)])) (S 48 42) [(ETuple [] (S 48 43) [] [])] [])] []) (S 48 47)) None)])] []) (S 48 51)))) (Some (S 48 52)))] [] None) None); (SExpr (ECall [] (EPath [] (mk_path false [mk_seg "enresult" [] (S 51 9)])) (S 51 17) [(ETuple [] (S 51 18) [] [])] []) None)]) (S 52 6)) (Some (S 52 7))); (SMacro [mk_attr false (S 54 5) (MNameValue (mk_path false [mk_seg "hooq" [] (S 54 7); mk_seg "tag" [] (S 54 13)]) (VStr "macro" (S 54 19))); mk_attr false (S 55 5) (MPath (mk_path false [mk_seg "hooq" [] (S 55 7); mk_seg "skip" [] (S 55 13)]))] (Mac (mk_path false [mk_seg "println" [] (S 56 5)]) Parenth (S 56 13) [L S (LStr "{}, {}") 56 14; O S "," 56 22; I S "enresult" 56 24; G S Parenth [L S (LOther "10") 56 33] 56 32; O S "?" 56 36; O S "," 56 37; G S Brace [I S "enresult" 57 9; G S Parenth [G S Parenth [] 57 18] 57 17; O S "?" 57 21; O S ";" 57 22; I S "Result" 59 9; O S ":" 59 15; O S ":" 59 16; O S "<" 59 17; I S "u32" 59 18; O S "," 59 21; G S Parenth [] 59 23; O S ">" 59 25; O S ":" 59 26; O S ":" 59 27; I S "Ok" 59 28; G S Parenth [L S (LOther "20") 59 31] 59 30] 56 39; O S "?" 60 6] (Some [VExpr (ELit [] (LStr "{}, {}") (S 56 14)) [O S "," 56 22]; VExpr (ETry [] (ECall [] (EPath [] (mk_path false [mk_seg "enresult" [] (S 56 24)])) (S 56 32) [(ELit [] (LOther "10") (S 56 33))] []) (S 56 36)) [O S "," 56 37]; VExpr (ETry [] (EBlock [] [] (S 56 39) [(SExpr (ETry [] (ECall [] (EPath [] (mk_path false [mk_seg "enresult" [] (S 57 9)])) (S 57 17) [(ETuple [] (S 57 18) [] [])] []) (S 57 21)) (Some (S 57 22))); (SExpr (ECall [] (EPath [] (mk_path false [mk_seg "Result" [O S ":" 59 15; O S ":" 59 16; O S "<" 59 17; I S "u32" 59 18; O S "," 59 21; G S Parenth [] 59 23; O S ">" 59 25] (S 59 9); mk_seg "Ok" [] (S 59 28)])) (S 59 30) [(ELit [] (LOther "20") (S 59 31))] []) None)]) (S 60 6)) []])) [O S ";" 60 8]); (SMacro [mk_attr false (S 62 5) (MNameValue (mk_path false [mk_seg "hooq" [] (S 62 7); mk_seg "tag" [] (S 62 13)]) (VStr "macro" (S 62 19)))] (Mac (mk_path false [mk_seg "println" [] (S 63 5)]) Parenth (S 63 13) [L S (LStr "{}, {}") 64 9; O S "," 64 17; I S "enresult" 65 9; G S Parenth [L S (LOther "10") 65 18] 65 17; O S "?" 65 21; O S "," 65 22; O S "#" 66 9; G S Bracket [I S "hooq" 66 11; O S ":" 66 15; O S ":" 66 16; I S "skip" 66 17] 66 10; G S Brace [I S "enresult" 68 13; G S Parenth [G S Parenth [] 68 22] 68 21; O S "?" 68 25; O S ";" 68 26; I S "Result" 70 13; O S ":" 70 19; O S ":" 70 20; O S "<" 70 21; I S "u32" 70 22; O S "," 70 25; G S Parenth [] 70 27; O S ">" 70 29; O S ":" 70 30; O S ":" 70 31; I S "Ok" 70 32; G S Parenth [L S (LOther "20") 70 35] 70 34] 67 9; O S "?" 71 10] (Some [VExpr (ELit [] (LStr "{}, {}") (S 64 9)) [O S "," 64 17]; VExpr (ETry [] (ECall [] (EPath [] (mk_path false [mk_seg "enresult" [] (S 65 9)])) (S 65 17) [(ELit [] (LOther "10") (S 65 18))] []) (S 65 21)) [O S "," 65 22]; VExpr (ETry [mk_attr false (S 66 9) (MPath (mk_path false [mk_seg "hooq" [] (S 66 11); mk_seg "skip" [] (S 66 17)]))] (EBlock [] [] (S 67 9) [(SExpr (ETry [] (ECall [] (EPath [] (mk_path false [mk_seg "enresult" [] (S 68 13)])) (S 68 21) [(ETuple [] (S 68 22) [] [])] []) (S 68 25)) (Some (S 68 26))); (SExpr (ECall [] (EPath [] (mk_path false [mk_seg "Result" [O S ":" 70 19; O S ":" 70 20; O S "<" 70 21; I S "u32" 70 22; O S "," 70 25; G S Parenth [] 70 27; O S ">" 70 29] (S 70 13); mk_seg "Ok" [] (S 70 32)])) (S 70 34) [(ELit [] (LOther "20") (S 70 35))] []) None)]) (S 71 10)) []])) [O S ";" 72 6]); (SExpr (ECall [] (EPath [] (mk_path false [mk_seg "Err" [] (S 74 5)])) (S 74 8) [(ETuple [] (S 74 9) [] [])] []) None)]).
Definition args_special_skip_detail_1 : list meta := let S := at_ "hooq-macros/tests/special/skip_detail.rs" in [].
Definition rec_special_skip_detail_1 : list string :=
  ["fn skip_stmts ( ) - > Result < ( ) , ( ) > { let _ = enresult ( true ) ? & & { enresult ( true ) . inspect ( | _ | { { : : std : : io : : _print (";
   "format_args ! ( ""tag:\s{0}\n"" , ""sub\sscope\sin\slocal"" ) ) ; } ; } ) ? } ; fn _fnc ( ) - > Result < ( ) , ( ) > { enresult ( ( ) ) . inspect ( | _ |";
   "{ { : : std : : io : : _print ( format_args ! ( ""tag:\s{0}\n"" , ""sub\sscope\sin\sitem"" ) ) ; } ; } ) ? ; if true { return Err ( ( ) ) . inspect ( | _";
   "| { { : : std : : io : : _print ( format_args ! ( ""tag:\s{0}\n"" , ""item"" ) ) ; } ; } ) ; } Err ( ( ) ) . inspect ( | _ | { { : : std : : io : : _print";
   "( format_args ! ( ""tag:\s{0}\n"" , ""item"" ) ) ; } ; } ) } { { : : std : : io : : _print ( format_args ! ( ""sub\sscope\sin\sexpr\n"" ) ) ; } ; if";
   "enresult ( false ) . inspect ( | _ | { { : : std : : io : : _print ( format_args ! ( ""tag:\s{0}\n"" , ""expr"" ) ) ; } ; } ) ? { return Ok ( { enresult (";
   "enresult ( ( ) ) ) . inspect ( | _ | { { : : std : : io : : _print ( format_args ! ( ""tag:\s{0}\n"" , ""expr"" ) ) ; } ; } ) ? } ) ? ; } enresult ( ( ) )";
   "} ? ; { : : std : : io : : _print ( format_args ! ( ""{0},\s{1}\n"" , enresult ( 10 ) ? , { enresult ( ( ) ) . inspect ( | _ | { { : : std : : io : :";
   "_print ( format_args ! ( ""tag:\s{0}\n"" , ""macro"" ) ) ; } ; } ) ? ; Result : : < u32 , ( ) > : : Ok ( 20 ) . inspect ( | _ | { { : : std : : io : :";
   "_print ( format_args ! ( ""tag:\s{0}\n"" , ""macro"" ) ) ; } ; } ) } ? ) ) ; } ; { : : std : : io : : _print ( format_args ! ( ""{0},\s{1}\n"" , enresult (";
   "10 ) . inspect ( | _ | { { : : std : : io : : _print ( format_args ! ( ""tag:\s{0}\n"" , ""macro"" ) ) ; } ; } ) ? , { enresult ( ( ) ) . inspect ( | _ |";
   "{ { : : std : : io : : _print ( format_args ! ( ""tag:\s{0}\n"" , ""macro"" ) ) ; } ; } ) ? ; Result : : < u32 , ( ) > : : Ok ( 20 ) . inspect ( | _ | { {";
   ": : std : : io : : _print ( format_args ! ( ""tag:\s{0}\n"" , ""macro"" ) ) ; } ; } ) } ? ) ) ; } ; Err ( ( ) ) . inspect ( | _ | { { : : std : : io : :";
   "_print ( format_args ! ( ""tag:\s{0}\n"" , ""(no\stag)"" ) ) ; } ; } ) }"].
Definition it_special_skip_detail_2 : item := let S := at_ "hooq-macros/tests/special/skip_detail.rs" in
  (IFn [mk_attr false (S 78 1) (MList (mk_path false [mk_seg "hooq" [] (S 78 3); mk_seg "method" [] (S 78 9)]) Parenth [O S "." 78 16; I S "inspect" 78 17; G S Parenth [O S "|" 78 25; I S "_" 78 26; O S "|" 78 27; G S Brace [I S "println" 79 5; O S "!" 79 12; G S Parenth [L S (LStr "tag: {}") 79 14; O S "," 79 23; O S "$" 79 25; I S "tag" 79 26] 79 13; O S ";" 79 30] 78 29] 78 24] (S 78 15)); mk_attr false (S 81 1) (MNameValue (mk_path false [mk_seg "hooq" [] (S 81 3); mk_seg "tag" [] (S 81 9)]) (VStr "(no tag)" (S 81 15))); mk_attr false (S 82 1) (MList (mk_path false [mk_seg "hooq" [] (S 82 3); mk_seg "tail_expr_idents" [] (S 82 9)]) Parenth [L S (LStr "Ok") 82 26; O S "," 82 30; L S (LStr "Err") 82 32] (S 82 25))] [] (mk_sig "skip_item" (RetPath (mk_path false [mk_seg "Result" [O S "<" 83 25; G S Parenth [] 83 26; O S "," 83 28; G S Parenth [] 83 30; O S ">" 83 32] (S 83 19)])) [I S "fn" 83 1; I S "skip_item" 83 4; G S Parenth [] 83 13; O S "-" 83 16; O S ">" 83 17; I S "Result" 83 19; O S "<" 83 25; G S Parenth [] 83 26; O S "," 83 28; G S Parenth [] 83 30; O S ">" 83 32]) (S 83 34) [(SItem (IOther [] [I S "struct" 86 5; I S "_S" 86 12; O S ";" 86 14])); (SItem (IImpl [mk_attr false (S 88 5) (MNameValue (mk_path false [mk_seg "hooq" [] (S 88 7); mk_seg "tag" [] (S 88 13)]) (VStr "impl" (S 88 19))); mk_attr false (S 89 5) (MPath (mk_path false [mk_seg "hooq" [] (S 89 7); mk_seg "skip" [] (S 89 13)]))] [I S "impl" 90 5; I S "_S" 90 10] (S 90 13) [(IIFn [mk_attr false (S 91 9) (MNameValue (mk_path false [mk_seg "hooq" [] (S 91 11); mk_seg "tag" [] (S 91 17)]) (VStr "sub scope in impl" (S 91 23)))] [] (mk_sig "_method" (RetPath (mk_path false [mk_seg "Result" [O S "<" 92 31; G S Parenth [] 92 32; O S "," 92 34; G S Parenth [] 92 36; O S ">" 92 38] (S 92 25)])) [I S "fn" 92 9; I S "_method" 92 12; G S Parenth [] 92 19; O S "-" 92 22; O S ">" 92 23; I S "Result" 92 25; O S "<" 92 31; G S Parenth [] 92 32; O S "," 92 34; G S Parenth [] 92 36; O S ">" 92 38]) (S 92 40) [(SExpr (ECall [] (EPath [] (mk_path false [mk_seg "Err" [] (S 93 13)])) (S 93 16) [(ETuple [] (S 93 17) [] [])] []) None)]); (IIFn [mk_attr false (S 96 9) (MNameValue (mk_path false [mk_seg "hooq" [] (S 96 11); mk_seg "tag" [] (S 96 17)]) (VStr "sub scope in impl" (S 96 23))); mk_attr false (S 97 9) (MPath (mk_path false [mk_seg "hooq" [] (S 97 11); mk_seg "skip" [] (S 97 17)]))] [] (mk_sig "_method2" (RetPath (mk_path false [mk_seg "Result" [O S "<" 98 32; G S Parenth [] 98 33; O S "," 98 35; G S Parenth [] 98 37; O S ">" 98 39] (S 98 26)])) [I S "fn" 98 9; I S "_method2" 98 12; G S Parenth [] 98 20; O S "-" 98 23; O S ">" 98 24; I S "Result" 98 26; O S "<" 98 32; G S Parenth [] 98 33; O S "," 98 35; G S Parenth [] 98 37; O S ">" 98 39]) (S 98 41) [(SExpr (ECall [] (EPath [] (mk_path false [mk_seg "Err" [] (S 99 13)])) (S 99 16) [(ETuple [] (S 99 17) [] [])] []) None)]); (IIMacro [mk_attr false (S 102 9) (MNameValue (mk_path false [mk_seg "hooq" [] (S 102 11); mk_seg "tag" [] (S 102 17)]) (VStr "sub scope in impl" (S 102 23))); mk_attr false (S 103 9) (MPath (mk_path false [mk_seg "hooq" [] (S 103 11); mk_seg "skip" [] (S 103 17)]))] (Mac (mk_path false [mk_seg "id" [] (S 104 9)]) Brace (S 104 13) [I S "fn" 105 13; I S "_method3" 105 16; G S Parenth [O S "&" 105 25; I S "self" 105 26] 105 24; O S "-" 105 32; O S ">" 105 33; I S "Result" 105 35; O S "<" 105 41; G S Parenth [] 105 42; O S "," 105 44; G S Parenth [] 105 46; O S ">" 105 48; G S Brace [I S "Err" 106 17; G S Parenth [G S Parenth [] 106 21] 106 20] 105 50] (Some [VFile [] [(IFn [] [] (mk_sig "_method3" (RetPath (mk_path false [mk_seg "Result" [O S "<" 105 41; G S Parenth [] 105 42; O S "," 105 44; G S Parenth [] 105 46; O S ">" 105 48] (S 105 35)])) [I S "fn" 105 13; I S "_method3" 105 16; G S Parenth [O S "&" 105 25; I S "self" 105 26] 105 24; O S "-" 105 32; O S ">" 105 33; I S "Result" 105 35; O S "<" 105 41; G S Parenth [] 105 42; O S "," 105 44; G S Parenth [] 105 46; O S ">" 105 48]) (S 105 50) [(SExpr (ECall [] (EPath [] (mk_path false [mk_seg "Err" [] (S 106 17)])) (S 106 20) [(ETuple [] (S 106 21) [] [])] []) None)])] []])) []); (IIMacro [mk_attr false (S 110 9) (MNameValue (mk_path false [mk_seg "hooq" [] (S 110 11); mk_seg "tag" [] (S 110 17)]) (VStr "sub scope in impl" (S 110 23)))] (Mac (mk_path false [mk_seg "id" [] (S 111 9)]) Brace (S 111 13) [O S "#" 112 13; G S Bracket [I S "hooq" 112 15; O S ":" 112 19; O S ":" 112 20; I S "skip" 112 21] 112 14; I S "fn" 113 13; I S "_method4" 113 16; G S Parenth [O S "&" 113 25; I S "self" 113 26] 113 24; O S "-" 113 32; O S ">" 113 33; I S "Result" 113 35; O S "<" 113 41; G S Parenth [] 113 42; O S "," 113 44; G S Parenth [] 113 46; O S ">" 113 48; G S Brace [I S "Err" 114 17; G S Parenth [G S Parenth [] 114 21] 114 20] 113 50] (Some [VFile [] [(IFn [mk_attr false (S 112 13) (MPath (mk_path false [mk_seg "hooq" [] (S 112 15); mk_seg "skip" [] (S 112 21)]))] [] (mk_sig "_method4" (RetPath (mk_path false [mk_seg "Result" [O S "<" 113 41; G S Parenth [] 113 42; O S "," 113 44; G S Parenth [] 113 46; O S ">" 113 48] (S 113 35)])) [I S "fn" 113 13; I S "_method4" 113 16; G S Parenth [O S "&" 113 25; I S "self" 113 26] 113 24; O S "-" 113 32; O S ">" 113 33; I S "Result" 113 35; O S "<" 113 41; G S Parenth [] 113 42; O S "," 113 44; G S Parenth [] 113 46; O S ">" 113 48]) (S 113 50) [(SExpr (ECall [] (EPath [] (mk_path false [mk_seg "Err" [] (S 114 17)])) (S 114 20) [(ETuple [] (S 114 21) [] [])] []) None)])] []])) [])])); (SItem (IMod [mk_attr false (S 119 5) (MNameValue (mk_path false [mk_seg "hooq" [] (S 119 7); mk_seg "tag" [] (S 119 13)]) (VStr "mod" (S 119 19))); mk_attr false (S 120 5) (MPath (mk_path false [mk_seg "hooq" [] (S 120 7); mk_seg "skip" [] (S 120 13)]))] [I S "mod" 121 5; I S "m" 121 9] (S 121 11) [(IFn [mk_attr false (S 122 9) (MNameValue (mk_path false [mk_seg "hooq" [] (S 122 11); mk_seg "tag" [] (S 122 17)]) (VStr "sub scope in mod" (S 122 23)))] [] (mk_sig "_mod_fn" (RetPath (mk_path false [mk_seg "Result" [O S "<" 123 31; G S Parenth [] 123 32; O S "," 123 34; G S Parenth [] 123 36; O S ">" 123 38] (S 123 25)])) [I S "fn" 123 9; I S "_mod_fn" 123 12; G S Parenth [] 123 19; O S "-" 123 22; O S ">" 123 23; I S "Result" 123 25; O S "<" 123 31; G S Parenth [] 123 32; O S "," 123 34; G S Parenth [] 123 36; O S ">" 123 38]) (S 123 40) [(SExpr (ECall [] (EPath [] (mk_path false [mk_seg "Err" [] (S 124 13)])) (S 124 16) [(ETuple [] (S 124 17) [] [])] []) None)]); (IFn [mk_attr false (S 127 9) (MNameValue (mk_path false [mk_seg "hooq" [] (S 127 11); mk_seg "tag" [] (S 127 17)]) (VStr "sub scope in mod" (S 127 23))); mk_attr false (S 128 9) (MPath (mk_path false [mk_seg "hooq" [] (S 128 11); mk_seg "skip" [] (S 128 17)]))] [] (mk_sig "_mod_fn2" (RetPath (mk_path false [mk_seg "Result" [O S "<" 129 32; G S Parenth [] 129 33; O S "," 129 35; G S Parenth [] 129 37; O S ">" 129 39] (S 129 26)])) [I S "fn" 129 9; I S "_mod_fn2" 129 12; G S Parenth [] 129 20; O S "-" 129 23; O S ">" 129 24; I S "Result" 129 26; O S "<" 129 32; G S Parenth [] 129 33; O S "," 129 35; G S Parenth [] 129 37; O S ">" 129 39]) (S 129 41) [(SExpr (ECall [] (EPath [] (mk_path false [mk_seg "Err" [] (S 130 13)])) (S 130 16) [(ETuple [] (S 130 17) [] [])] []) None)])])); (SItem (IConst [mk_attr false (S 134 5) (MNameValue (mk_path false [mk_seg "hooq" [] (S 134 7); mk_seg "tag" [] (S 134 13)]) (VStr "const" (S 134 19))); mk_attr false (S 135 5) (MPath (mk_path false [mk_seg "hooq" [] (S 135 7); mk_seg "skip" [] (S 135 13)]))] [I S "const" 136 5; I S "_C" 136 11; O S ":" 136 13; I S "usize" 136 15; O S "=" 136 21] (EBlock [] [] (S 136 23) [(SLocalInit [] [I S "let" 137 9; I S "_" 137 13; O S "=" 137 15] (EClosure [] [O S "|" 137 17; O S "|" 137 18; O S "-" 137 20; O S ">" 137 21; I S "Result" 137 23; O S "<" 137 29; I S "u32" 137 30; O S "," 137 33; G S Parenth [] 137 35; O S ">" 137 37] (RetPath (mk_path false [mk_seg "Result" [O S "<" 137 29; I S "u32" 137 30; O S "," 137 33; G S Parenth [] 137 35; O S ">" 137 37] (S 137 23)])) (EBlock [] [] (S 137 39) [(SLocalInit [mk_attr false (S 138 13) (MNameValue (mk_path false [mk_seg "hooq" [] (S 138 15); mk_seg "tag" [] (S 138 21)]) (VStr "sub scope in const" (S 138 27)))] [I S "let" 139 13; I S "res" 139 17; O S "=" 139 21] (ETry [] (ECall [] (EPath [] (mk_path false [mk_seg "enresult" [] (S 139 23)])) (S 139 31) [(ELit [] (LOther "42_u32") (S 139 32))] []) (S 139 39)) [] None [O S ";" 139 40]); (SExpr (ECall [] (EPath [] (mk_path false [mk_seg "Ok" [] (S 141 13)])) (S 141 15) [(EPath [] (mk_path false [mk_seg "res" [] (S 141 16)]))] []) None)])) [] None [O S ";" 142 10]); (SExpr (ELit [] (LOther "10") (S 144 9)) None)]) [O S ";" 145 6])); (SItem (IStatic [mk_attr false (S 147 5) (MNameValue (mk_path false [mk_seg "hooq" [] (S 147 7); mk_seg "tag" [] (S 147 13)]) (VStr "static" (S 147 19))); mk_attr false (S 148 5) (MPath (mk_path false [mk_seg "hooq" [] (S 148 7); mk_seg "skip" [] (S 148 13)]))] [I S "static" 149 5; I S "_SS" 149 12; O S ":" 149 15; I S "LazyLock" 149 17; O S "<" 149 25; I S "u32" 149 26; O S ">" 149 29; O S "=" 149 31] (ECall [] (EPath [] (mk_path false [mk_seg "LazyLock" [] (S 149 33); mk_seg "new" [] (S 149 43)])) (S 149 46) [(EClosure [] [O S "|" 149 47; O S "|" 149 48] RetNone (EBlock [] [] (S 149 50) [(SExpr (EMethodCall [] (ECall [] (EParen [] (S 150 9) (EClosure [] [O S "|" 150 10; O S "|" 150 11; O S "-" 150 13; O S ">" 150 14; I S "Result" 150 16; O S "<" 150 22; I S "u32" 150 23; O S "," 150 26; G S Parenth [] 150 28; O S ">" 150 30] (RetPath (mk_path false [mk_seg "Result" [O S "<" 150 22; I S "u32" 150 23; O S "," 150 26; G S Parenth [] 150 28; O S ">" 150 30] (S 150 16)])) (EBlock [] [] (S 150 32) [(SLocalInit [mk_attr false (S 151 13) (MNameValue (mk_path false [mk_seg "hooq" [] (S 151 15); mk_seg "tag" [] (S 151 21)]) (VStr "sub scope in static" (S 151 27)))] [I S "let" 152 13; I S "res" 152 17; O S "=" 152 21] (ETry [] (ECall [] (EPath [] (mk_path false [mk_seg "enresult" [] (S 152 23)])) (S 152 31) [(ELit [] (LOther "42_u32") (S 152 32))] []) (S 152 39)) [] None [O S ";" 152 40]); (SExpr (ECall [] (EPath [] (mk_path false [mk_seg "Ok" [] (S 154 13)])) (S 154 15) [(EPath [] (mk_path false [mk_seg "res" [] (S 154 16)]))] []) None)]))) (S 155 11) [] []) [O S "." 156 9; I S "unwrap_or" 156 10] (S 156 19) [(ELit [] (LOther "0") (S 156 20))] []) None)]))] []) [O S ";" 157 7])); (SItem (ITrait [mk_attr false (S 159 5) (MNameValue (mk_path false [mk_seg "hooq" [] (S 159 7); mk_seg "tag" [] (S 159 13)]) (VStr "trait" (S 159 19))); mk_attr false (S 160 5) (MPath (mk_path false [mk_seg "hooq" [] (S 160 7); mk_seg "skip" [] (S 160 13)]))] [I S "trait" 161 5; I S "_T" 161 11] (S 161 14) [(TIFn [mk_attr false (S 162 9) (MNameValue (mk_path false [mk_seg "hooq" [] (S 162 11); mk_seg "tag" [] (S 162 17)]) (VStr "sub scope in trait" (S 162 23)))] (mk_sig "_trait_method" (RetPath (mk_path false [mk_seg "Result" [O S "<" 163 37; G S Parenth [] 163 38; O S "," 163 40; G S Parenth [] 163 42; O S ">" 163 44] (S 163 31)])) [I S "fn" 163 9; I S "_trait_method" 163 12; G S Parenth [] 163 25; O S "-" 163 28; O S ">" 163 29; I S "Result" 163 31; O S "<" 163 37; G S Parenth [] 163 38; O S "," 163 40; G S Parenth [] 163 42; O S ">" 163 44]) (S 163 46) [(SExpr (ECall [] (EPath [] (mk_path false [mk_seg "Err" [] (S 164 13)])) (S 164 16) [(ETuple [] (S 164 17) [] [])] []) None)]); (TIFn [mk_attr false (S 167 9) (MNameValue (mk_path false [mk_seg "hooq" [] (S 167 11); mk_seg "tag" [] (S 167 17)]) (VStr "sub scope in trait" (S 167 23))); mk_attr false (S 168 9) (MPath (mk_path false [mk_seg "hooq" [] (S 168 11); mk_seg "skip" [] (S 168 17)]))] (mk_sig "_trait_method2" (RetPath (mk_path false [mk_seg "Result" [O S "<" 169 38; G S Parenth [] 169 39; O S "," 169 41; G S Parenth [] 169 43; O S ">" 169 45] (S 169 32)])) [I S "fn" 169 9; I S "_trait_method2" 169 12; G S Parenth [] 169 26; O S "-" 169 29; O S ">" 169 30; I S "Result" 169 32; O S "<" 169 38; G S Parenth [] 169 39; O S "," 169 41; G S Parenth [] 169 43; O S ">" 169 45]) (S 169 47) [(SExpr (ECall [] (EPath [] (mk_path false [mk_seg "Err" [] (S 170 13)])) (S 170 16) [(ETuple [] (S 170 17) [] [])] []) None)]); (TIMacro [mk_attr false (S 173 9) (MNameValue (mk_path false [mk_seg "hooq" [] (S 173 11); mk_seg "tag" [] (S 173 17)]) (VStr "sub scope in impl" (S 173 23))); mk_attr false (S 174 9) (MPath (mk_path false [mk_seg "hooq" [] (S 174 11); mk_seg "skip" [] (S 174 17)]))] (Mac (mk_path false [mk_seg "id" [] (S 175 9)]) Brace (S 175 13) [I S "fn" 176 13; I S "_trait_method3" 176 16; G S Parenth [O S "&" 176 31; I S "self" 176 32] 176 30; O S "-" 176 38; O S ">" 176 39; I S "Result" 176 41; O S "<" 176 47; G S Parenth [] 176 48; O S "," 176 50; G S Parenth [] 176 52; O S ">" 176 54; G S Brace [I S "Err" 177 17; G S Parenth [G S Parenth [] 177 21] 177 20] 176 56] (Some [VFile [] [(IFn [] [] (mk_sig "_trait_method3" (RetPath (mk_path false [mk_seg "Result" [O S "<" 176 47; G S Parenth [] 176 48; O S "," 176 50; G S Parenth [] 176 52; O S ">" 176 54] (S 176 41)])) [I S "fn" 176 13; I S "_trait_method3" 176 16; G S Parenth [O S "&" 176 31; I S "self" 176 32] 176 30; O S "-" 176 38; O S ">" 176 39; I S "Result" 176 41; O S "<" 176 47; G S Parenth [] 176 48; O S "," 176 50; G S Parenth [] 176 52; O S ">" 176 54]) (S 176 56) [(SExpr (ECall [] (EPath [] (mk_path false [mk_seg "Err" [] (S 177 17)])) (S 177 20) [(ETuple [] (S 177 21) [] [])] []) None)])] []])) []); (TIMacro [mk_attr false (S 181 9) (MNameValue (mk_path false [mk_seg "hooq" [] (S 181 11); mk_seg "tag" [] (S 181 17)]) (VStr "sub scope in impl" (S 181 23)))] (Mac (mk_path false [mk_seg "id" [] (S 182 9)]) Brace (S 182 13) [O S "#" 183 13; G S Bracket [I S "hooq" 183 15; O S ":" 183 19; O S ":" 183 20; I S "skip" 183 21] 183 14; I S "fn" 184 13; I S "_trait_method4" 184 16; G S Parenth [O S "&" 184 31; I S "self" 184 32] 184 30; O S "-" 184 38; O S ">" 184 39; I S "Result" 184 41; O S "<" 184 47; G S Parenth [] 184 48; O S "," 184 50; G S Parenth [] 184 52; O S ">" 184 54; G S Brace [I S "Err" 185 17; G S Parenth [G S Parenth [] 185 21] 185 20] 184 56] (Some [VFile [] [(IFn [mk_attr false (S 183 13) (MPath (mk_path false [mk_seg "hooq" [] (S 183 15); mk_seg "skip" [] (S 183 21)]))] [] (mk_sig "_trait_method4" (RetPath (mk_path false [mk_seg "Result" [O S "<" 184 47; G S Parenth [] 184 48; O S "," 184 50; G S Parenth [] 184 52; O S ">" 184 54] (S 184 41)])) [I S "fn" 184 13; I S "_trait_method4" 184 16; G S Parenth [O S "&" 184 31; I S "self" 184 32] 184 30; O S "-" 184 38; O S ">" 184 39; I S "Result" 184 41; O S "<" 184 47; G S Parenth [] 184 48; O S "," 184 50; G S Parenth [] 184 52; O S ">" 184 54]) (S 184 56) [(SExpr (ECall [] (EPath [] (mk_path false [mk_seg "Err" [] (S 185 17)])) (S 185 20) [(ETuple [] (S 185 21) [] [])] []) None)])] []])) [])])); (SItem (IMod [] [I S "mod" 190 5; I S "tmp" 190 9] (S 190 13) [(IOther [] [I S "use" 191 9; I S "super" 191 13; O S ":" 191 18; O S ":" 191 19; O S "*" 191 20; O S ";" 191 21]); (IMacro [mk_attr false (S 193 9) (MNameValue (mk_path false [mk_seg "hooq" [] (S 193 11); mk_seg "tag" [] (S 193 17)]) (VStr "macro" (S 193 23))); mk_attr false (S 194 9) (MPath (mk_path false [mk_seg "hooq" [] (S 194 11); mk_seg "skip" [] (S 194 17)]))] None (Mac (mk_path false [mk_seg "id" [] (S 195 9)]) Brace (S 195 13) [I S "fn" 196 13; I S "_macro_fn" 196 16; G S Parenth [] 196 25; O S "-" 196 28; O S ">" 196 29; I S "Result" 196 31; O S "<" 196 37; G S Parenth [] 196 38; O S "," 196 40; G S Parenth [] 196 42; O S ">" 196 44; G S Brace [I S "Err" 197 17; G S Parenth [G S Parenth [] 197 21] 197 20] 196 46] (Some [VFile [] [(IFn [] [] (mk_sig "_macro_fn" (RetPath (mk_path false [mk_seg "Result" [O S "<" 196 37; G S Parenth [] 196 38; O S "," 196 40; G S Parenth [] 196 42; O S ">" 196 44] (S 196 31)])) [I S "fn" 196 13; I S "_macro_fn" 196 16; G S Parenth [] 196 25; O S "-" 196 28; O S ">" 196 29; I S "Result" 196 31; O S "<" 196 37; G S Parenth [] 196 38; O S "," 196 40; G S Parenth [] 196 42; O S ">" 196 44]) (S 196 46) [(SExpr (ECall [] (EPath [] (mk_path false [mk_seg "Err" [] (S 197 17)])) (S 197 20) [(ETuple [] (S 197 21) [] [])] []) None)])] []])) []); (IMacro [mk_attr false (S 201 9) (MNameValue (mk_path false [mk_seg "hooq" [] (S 201 11); mk_seg "tag" [] (S 201 17)]) (VStr "macro" (S 201 23)))] None (Mac (mk_path false [mk_seg "id" [] (S 202 9)]) Brace (S 202 13) [O S "#" 203 13; G S Bracket [I S "allow" 203 15; G S Parenth [I S "clippy" 203 21; O S ":" 203 27; O S ":" 203 28; I S "needless_question_mark" 203 29] 203 20] 203 14; I S "fn" 204 13; I S "_macro_fn_2" 204 16; G S Parenth [] 204 27; O S "-" 204 30; O S ">" 204 31; I S "Result" 204 33; O S "<" 204 39; G S Parenth [] 204 40; O S "," 204 42; G S Parenth [] 204 44; O S ">" 204 46; G S Brace [O S "#" 205 17; G S Bracket [I S "hooq" 205 19; O S ":" 205 23; O S ":" 205 24; I S "skip" 205 25] 205 18; I S "Ok" 206 17; G S Parenth [G S Brace [I S "enresult" 207 21; G S Parenth [G S Parenth [] 207 30] 207 29; O S "?" 207 33; O S ";" 207 34; I S "Result" 209 21; O S ":" 209 27; O S ":" 209 28; O S "<" 209 29; G S Parenth [] 209 30; O S "," 209 32; G S Parenth [] 209 34; O S ">" 209 36; O S ":" 209 37; O S ":" 209 38; I S "Err" 209 39; G S Parenth [G S Parenth [] 209 43] 209 42] 206 20; O S "?" 210 18] 206 19] 204 48] (Some [VFile [] [(IFn [mk_attr false (S 203 13) (MList (mk_path false [mk_seg "allow" [] (S 203 15)]) Parenth [I S "clippy" 203 21; O S ":" 203 27; O S ":" 203 28; I S "needless_question_mark" 203 29] (S 203 20))] [] (mk_sig "_macro_fn_2" (RetPath (mk_path false [mk_seg "Result" [O S "<" 204 39; G S Parenth [] 204 40; O S "," 204 42; G S Parenth [] 204 44; O S ">" 204 46] (S 204 33)])) [I S "fn" 204 13; I S "_macro_fn_2" 204 16; G S Parenth [] 204 27; O S "-" 204 30; O S ">" 204 31; I S "Result" 204 33; O S "<" 204 39; G S Parenth [] 204 40; O S "," 204 42; G S Parenth [] 204 44; O S ">" 204 46]) (S 204 48) [(SExpr (ECall [mk_attr false (S 205 17) (MPath (mk_path false [mk_seg "hooq" [] (S 205 19); mk_seg "skip" [] (S 205 25)]))] (EPath [] (mk_path false [mk_seg "Ok" [] (S 206 17)])) (S 206 19) [(ETry [] (EBlock [] [] (S 206 20) [(SExpr (ETry [] (ECall [] (EPath [] (mk_path false [mk_seg "enresult" [] (S 207 21)])) (S 207 29) [(ETuple [] (S 207 30) [] [])] []) (S 207 33)) (Some (S 207 34))); (SExpr (ECall [] (EPath [] (mk_path false [mk_seg "Result" [O S ":" 209 27; O S ":" 209 28; O S "<" 209 29; G S Parenth [] 209 30; O S "," 209 32; G S Parenth [] 209 34; O S ">" 209 36] (S 209 21); mk_seg "Err" [] (S 209 39)])) (S 209 42) [(ETuple [] (S 209 43) [] [])] []) None)]) (S 210 18))] []) None)])] []])) [])])); (SExpr (ECall [] (EPath [] (mk_path false [mk_seg "Err" [] (S 215 5)])) (S 215 8) [(ETuple [] (S 215 9) [] [])] []) None)]).
Definition args_special_skip_detail_2 : list meta := let S := at_ "hooq-macros/tests/special/skip_detail.rs" in [].
Definition rec_special_skip_detail_2 : list string :=
  ["fn skip_item ( ) - > Result < ( ) , ( ) > { struct _S ; impl _S { fn _method ( ) - > Result < ( ) , ( ) > { Err ( ( ) ) . inspect ( | _ | { { : : std";
   ": : io : : _print ( format_args ! ( ""tag:\s{0}\n"" , ""sub\sscope\sin\simpl"" ) ) ; } ; } ) } fn _method2 ( ) - > Result < ( ) , ( ) > { Err ( ( ) ) .";
   "inspect ( | _ | { { : : std : : io : : _print ( format_args ! ( ""tag:\s{0}\n"" , ""sub\sscope\sin\simpl"" ) ) ; } ; } ) } fn _method3 ( & self ) - >";
   "Result < ( ) , ( ) > { Err ( ( ) ) . inspect ( | _ | { { : : std : : io : : _print ( format_args ! ( ""tag:\s{0}\n"" , ""sub\sscope\sin\simpl"" ) ) ; } ;";
   "} ) } fn _method4 ( & self ) - > Result < ( ) , ( ) > { Err ( ( ) ) . inspect ( | _ | { { : : std : : io : : _print ( format_args ! ( ""tag:\s{0}\n"" ,";
   """sub\sscope\sin\simpl"" ) ) ; } ; } ) } } mod m { fn _mod_fn ( ) - > Result < ( ) , ( ) > { Err ( ( ) ) . inspect ( | _ | { { : : std : : io : : _print";
   "( format_args ! ( ""tag:\s{0}\n"" , ""sub\sscope\sin\smod"" ) ) ; } ; } ) } fn _mod_fn2 ( ) - > Result < ( ) , ( ) > { Err ( ( ) ) . inspect ( | _ | { { :";
   ": std : : io : : _print ( format_args ! ( ""tag:\s{0}\n"" , ""sub\sscope\sin\smod"" ) ) ; } ; } ) } } const _C : usize = { let _ = | | - > Result < u32 ,";
   "( ) > { let res = enresult ( 42_u32 ) . inspect ( | _ | { { : : std : : io : : _print ( format_args ! ( ""tag:\s{0}\n"" , ""sub\sscope\sin\sconst"" ) ) ;";
   "} ; } ) ? ; Ok ( res ) . inspect ( | _ | { { : : std : : io : : _print ( format_args ! ( ""tag:\s{0}\n"" , ""const"" ) ) ; } ; } ) } ; 10 } ; static _SS :";
   "LazyLock < u32 > = LazyLock : : new ( | | ( | | - > Result < u32 , ( ) > { let res = enresult ( 42_u32 ) . inspect ( | _ | { { : : std : : io : :";
   "_print ( format_args ! ( ""tag:\s{0}\n"" , ""sub\sscope\sin\sstatic"" ) ) ; } ; } ) ? ; Ok ( res ) . inspect ( | _ | { { : : std : : io : : _print (";
   "format_args ! ( ""tag:\s{0}\n"" , ""static"" ) ) ; } ; } ) } ) ( ) . unwrap_or ( 0 ) ) ; trait _T { fn _trait_method ( ) - > Result < ( ) , ( ) > { Err (";
   "( ) ) . inspect ( | _ | { { : : std : : io : : _print ( format_args ! ( ""tag:\s{0}\n"" , ""sub\sscope\sin\strait"" ) ) ; } ; } ) } fn _trait_method2 ( )";
   "- > Result < ( ) , ( ) > { Err ( ( ) ) . inspect ( | _ | { { : : std : : io : : _print ( format_args ! ( ""tag:\s{0}\n"" , ""sub\sscope\sin\strait"" ) ) ;";
   "} ; } ) } fn _trait_method3 ( & self ) - > Result < ( ) , ( ) > { Err ( ( ) ) . inspect ( | _ | { { : : std : : io : : _print ( format_args ! (";
   """tag:\s{0}\n"" , ""sub\sscope\sin\simpl"" ) ) ; } ; } ) } fn _trait_method4 ( & self ) - > Result < ( ) , ( ) > { Err ( ( ) ) . inspect ( | _ | { { : :";
   "std : : io : : _print ( format_args ! ( ""tag:\s{0}\n"" , ""sub\sscope\sin\simpl"" ) ) ; } ; } ) } } mod tmp { use super : : * ; fn _macro_fn ( ) - >";
   "Result < ( ) , ( ) > { Err ( ( ) ) . inspect ( | _ | { { : : std : : io : : _print ( format_args ! ( ""tag:\s{0}\n"" , ""macro"" ) ) ; } ; } ) } # [ allow";
   "( clippy : : needless_question_mark ) ] fn _macro_fn_2 ( ) - > Result < ( ) , ( ) > { Ok ( { enresult ( ( ) ) . inspect ( | _ | { { : : std : : io : :";
   "_print ( format_args ! ( ""tag:\s{0}\n"" , ""macro"" ) ) ; } ; } ) ? ; Result : : < ( ) , ( ) > : : Err ( ( ) ) . inspect ( | _ | { { : : std : : io : :";
   "_print ( format_args ! ( ""tag:\s{0}\n"" , ""macro"" ) ) ; } ; } ) } ? ) } } Err ( ( ) ) . inspect ( | _ | { { : : std : : io : : _print ( format_args ! (";
   """tag:\s{0}\n"" , ""(no\stag)"" ) ) ; } ; } ) }"].
Definition it_special_skip_detail_3 : item := let S := at_ "hooq-macros/tests/special/skip_detail.rs" in
  (IFn [mk_attr false (S 219 1) (MList (mk_path false [mk_seg "hooq" [] (S 219 3); mk_seg "method" [] (S 219 9)]) Parenth [O S "." 219 16; I S "inspect" 219 17; G S Parenth [O S "|" 219 25; I S "_" 219 26; O S "|" 219 27; G S Brace [I S "println" 220 5; O S "!" 220 12; G S Parenth [L S (LStr "tag: {}") 220 14; O S "," 220 23; O S "$" 220 25; I S "tag" 220 26] 220 13; O S ";" 220 30] 219 29] 219 24] (S 219 15)); mk_attr false (S 222 1) (MNameValue (mk_path false [mk_seg "hooq" [] (S 222 3); mk_seg "tag" [] (S 222 9)]) (VStr "(no tag)" (S 222 15))); mk_attr false (S 223 1) (MList (mk_path false [mk_seg "hooq" [] (S 223 3); mk_seg "tail_expr_idents" [] (S 223 9)]) Parenth [L S (LStr "Ok") 223 26; O S "," 223 30; L S (LStr "Err") 223 32] (S 223 25))] [] (mk_sig "skip_expr" (RetPath (mk_path false [mk_seg "Result" [O S "<" 224 25; G S Parenth [] 224 26; O S "," 224 28; G S Parenth [] 224 30; O S ">" 224 32] (S 224 19)])) [I S "fn" 224 1; I S "skip_expr" 224 4; G S Parenth [] 224 13; O S "-" 224 16; O S ">" 224 17; I S "Result" 224 19; O S "<" 224 25; G S Parenth [] 224 26; O S "," 224 28; G S Parenth [] 224 30; O S ">" 224 32]) (S 224 34) [(SLocalInit [mk_attr false (S 225 5) (MNameValue (mk_path false [mk_seg "hooq" [] (S 225 7); mk_seg "tag" [] (S 225 13)]) (VStr "try" (S 225 19)))] [I S "let" 226 5; I S "_" 226 9; O S "=" 226 11] (EBlock [] [] (S 226 13) [(SExpr (ETry [mk_attr false (S 227 9) (MPath (mk_path false [mk_seg "hooq" [] (S 227 11); mk_seg "skip" [] (S 227 17)]))] (ECall [] (EPath [] (mk_path false [mk_seg "enresult" [] (S 228 9)])) (S 228 17) [(ETuple [] (S 228 18) [] [])] []) (S 228 21)) None)]) [] None [O S ";" 229 6]); (SLocalInit [] [I S "let" 231 5; I S "_" 231 9; O S "=" 231 11] (EBlock [] [] (S 231 13) [(SExpr (ETry [mk_attr false (S 232 9) (MNameValue (mk_path false [mk_seg "hooq" [] (S 232 11); mk_seg "tag" [] (S 232 17)]) (VStr "try" (S 232 23))); mk_attr false (S 233 9) (MPath (mk_path false [mk_seg "hooq" [] (S 233 11); mk_seg "skip" [] (S 233 17)]))] (ECall [] (EPath [] (mk_path false [mk_seg "enresult" [] (S 234 9)])) (S 234 17) [(ETuple [] (S 234 18) [(ETry [] (ECall [] (EPath [] (mk_path false [mk_seg "enresult" [] (S 234 19)])) (S 234 27) [(ETuple [] (S 234 28) [] [])] []) (S 234 31)); (EBlock [] [] (S 234 34) [(SExpr (ETry [mk_attr false (S 235 13) (MNameValue (mk_path false [mk_seg "hooq" [] (S 235 15); mk_seg "tag" [] (S 235 21)]) (VStr "sub scope in function args." (S 235 27)))] (ECall [] (EPath [] (mk_path false [mk_seg "enresult" [] (S 236 13)])) (S 236 21) [(ETuple [] (S 236 22) [] [])] []) (S 236 25)) None)])] [O S "," 234 32])] []) (S 237 12)) None)]) [] None [O S ";" 238 6]); (SLocalInit [mk_attr false (S 240 5) (MNameValue (mk_path false [mk_seg "hooq" [] (S 240 7); mk_seg "tag" [] (S 240 13)]) (VStr "return" (S 240 19)))] [I S "let" 241 5; I S "_f" 241 9; O S "=" 241 12] (EClosure [] [O S "|" 241 14; I S "f" 241 15; O S ":" 241 16; I S "bool" 241 18; O S "|" 241 22; O S "-" 241 24; O S ">" 241 25; I S "Result" 241 27; O S "<" 241 33; G S Parenth [G S Parenth [] 241 35; O S "," 241 37; G S Parenth [] 241 39] 241 34; O S "," 241 42; G S Parenth [] 241 44; O S ">" 241 46] (RetPath (mk_path false [mk_seg "Result" [O S "<" 241 33; G S Parenth [G S Parenth [] 241 35; O S "," 241 37; G S Parenth [] 241 39] 241 34; O S "," 241 42; G S Parenth [] 241 44; O S ">" 241 46] (S 241 27)])) (EBlock [] [] (S 241 48) [(SExpr (EIf [] [I S "if" 242 9] (EPath [] (mk_path false [mk_seg "f" [] (S 242 12)])) (S 242 14) [(SExpr (EReturn [mk_attr false (S 243 13) (MPath (mk_path false [mk_seg "hooq" [] (S 243 15); mk_seg "skip" [] (S 243 21)]))] (S 244 13) (Some (ECall [] (EPath [] (mk_path false [mk_seg "Ok" [] (S 244 20)])) (S 244 22) [(ETuple [] (S 244 23) [(ETry [] (ECall [] (EPath [] (mk_path false [mk_seg "enresult" [] (S 244 24)])) (S 244 32) [(ETuple [] (S 244 33) [] [])] []) (S 244 36)); (EBlock [] [] (S 244 39) [(SExpr (ETry [] (ECall [] (EPath [] (mk_path false [mk_seg "enresult" [] (S 244 41)])) (S 244 49) [(ETuple [] (S 244 50) [] [])] []) (S 244 53)) None)])] [O S "," 244 37])] []))) (Some (S 244 58)))] [] None) None); (SExpr (ECall [] (EPath [] (mk_path false [mk_seg "Ok" [] (S 246 9)])) (S 246 11) [(ETuple [] (S 246 12) [(ETuple [] (S 246 13) [] []); (ETuple [] (S 246 17) [] [])] [O S "," 246 15])] []) None)])) [] None [O S ";" 247 6]); (SLocalInit [mk_attr false (S 249 5) (MNameValue (mk_path false [mk_seg "hooq" [] (S 249 7); mk_seg "tag" [] (S 249 13)]) (VStr "array" (S 249 19))); mk_attr false (S 250 5) (MPath (mk_path false [mk_seg "hooq" [] (S 250 7); mk_seg "skip" [] (S 250 13)]))] [I S "let" 251 5; I S "_" 251 9; O S "=" 251 11] (EArray [] (S 251 13) [(ETry [] (ECall [] (EPath [] (mk_path false [mk_seg "enresult" [] (S 251 14)])) (S 251 22) [(ELit [] (LOther "1") (S 251 23))] []) (S 251 25)); (ETry [] (ECall [] (EPath [] (mk_path false [mk_seg "enresult" [] (S 251 28)])) (S 251 36) [(ELit [] (LOther "2") (S 251 37))] []) (S 251 39)); (EBlock [] [] (S 251 42) [(SExpr (ETry [mk_attr false (S 252 9) (MNameValue (mk_path false [mk_seg "hooq" [] (S 252 11); mk_seg "tag" [] (S 252 17)]) (VStr "sub scope in array" (S 252 23)))] (ECall [] (EPath [] (mk_path false [mk_seg "enresult" [] (S 253 9)])) (S 253 17) [(ELit [] (LOther "3") (S 253 18))] []) (S 253 20)) None)])] [O S "," 251 26; O S "," 251 40]) [] None [O S ";" 254 7]); (SLocalInit [mk_attr false (S 262 5) (MNameValue (mk_path false [mk_seg "hooq" [] (S 262 7); mk_seg "tag" [] (S 262 13)]) (VStr "block" (S 262 19)))] [I S "let" 263 5; I S "_" 263 9; O S "=" 263 11] (ETry [mk_attr false (S 263 13) (MPath (mk_path false [mk_seg "hooq" [] (S 263 15); mk_seg "skip" [] (S 263 21)]))] (EBlock [] [] (S 264 5) [(SLocalInit [] [I S "let" 265 9; I S "_" 265 13; O S "=" 265 15] (ETry [] (ECall [] (EPath [] (mk_path false [mk_seg "enresult" [] (S 265 17)])) (S 265 25) [(ETry [] (ECall [] (EPath [] (mk_path false [mk_seg "enresult" [] (S 265 26)])) (S 265 34) [(ETuple [] (S 265 35) [] [])] []) (S 265 38))] []) (S 265 40)) [] None [O S ";" 265 41]); (SExpr (ETry [] (ECall [] (EPath [] (mk_path false [mk_seg "enresult" [] (S 267 9)])) (S 267 17) [(ETry [] (ECall [] (EPath [] (mk_path false [mk_seg "enresult" [] (S 267 18)])) (S 267 26) [(ECall [] (EPath [] (mk_path false [mk_seg "enresult" [] (S 267 27)])) (S 267 35) [(ETuple [] (S 267 36) [] [])] [])] []) (S 267 40))] []) (S 267 42)) None)]) (S 268 6)) [] None [O S ";" 268 7]); (SExpr (ETry [mk_attr false (S 270 5) (MNameValue (mk_path false [mk_seg "hooq" [] (S 270 7); mk_seg "tag" [] (S 270 13)]) (VStr "call" (S 270 19))); mk_attr false (S 271 5) (MPath (mk_path false [mk_seg "hooq" [] (S 271 7); mk_seg "skip" [] (S 271 13)]))] (ECall [] (EPath [] (mk_path false [mk_seg "enresult" [] (S 272 5)])) (S 272 13) [(ETry [] (ECall [] (EPath [] (mk_path false [mk_seg "enresult" [] (S 272 14)])) (S 272 22) [(ETry [] (ECall [] (EPath [] (mk_path false [mk_seg "enresult" [] (S 272 23)])) (S 272 31) [(EBlock [] [] (S 272 32) [(SExpr (ETry [mk_attr false (S 273 9) (MNameValue (mk_path false [mk_seg "hooq" [] (S 273 11); mk_seg "tag" [] (S 273 17)]) (VStr "sub scope in call" (S 273 23)))] (ECall [] (EPath [] (mk_path false [mk_seg "enresult" [] (S 274 9)])) (S 274 17) [(ETuple [] (S 274 18) [] [])] []) (S 274 21)) None)])] []) (S 275 7))] []) (S 275 9))] []) (S 275 11)) (Some (S 275 12))); (SExpr (ETry [mk_attr false (S 277 5) (MNameValue (mk_path false [mk_seg "hooq" [] (S 277 7); mk_seg "tag" [] (S 277 13)]) (VStr "call-2" (S 277 19))); mk_attr false (S 278 5) (MPath (mk_path false [mk_seg "hooq" [] (S 278 7); mk_seg "skip" [] (S 278 13)]))] (ECall [] (EParen [] (S 279 5) (EField [] (ETuple [] (S 279 6) [(ETry [] (ECall [] (EPath [] (mk_path false [mk_seg "enresult" [] (S 280 9)])) (S 280 17) [(EClosure [] [O S "|" 280 18; O S "|" 280 19] RetNone (EBlock [] [] (S 280 21) [(SExpr (ETry [] (ECall [] (EPath [] (mk_path false [mk_seg "enresult" [] (S 281 13)])) (S 281 21) [(ETuple [] (S 281 22) [] [])] []) (S 281 25)) (Some (S 281 26))); (SExpr (ECall [] (EPath [] (mk_path false [mk_seg "enresult" [] (S 283 13)])) (S 283 21) [(ETuple [] (S 283 22) [] [])] []) None)]))] []) (S 284 11)); (EBlock [] [] (S 285 9) [(SExpr (ETry [] (ECall [] (EPath [] (mk_path false [mk_seg "enresult" [] (S 286 13)])) (S 286 21) [(ETuple [] (S 286 22) [] [])] []) (S 286 25)) (Some (S 286 26)))])] [O S "," 284 12; O S "," 287 10]) [O S "." 289 9; L S (LOther "0") 289 10])) (S 289 12) [] []) (S 289 14)) (Some (S 289 15))); (SLocalInit [mk_attr false (S 291 5) (MNameValue (mk_path false [mk_seg "hooq" [] (S 291 7); mk_seg "tag" [] (S 291 13)]) (VStr "cast" (S 291 19)))] [I S "let" 292 5; I S "_" 292 9; O S "=" 292 11] (ECast [] (EField [mk_attr false (S 292 13) (MPath (mk_path false [mk_seg "hooq" [] (S 292 15); mk_seg "skip" [] (S 292 21)]))] (ETuple [] (S 293 5) [(ETry [] (ECall [] (EPath [] (mk_path false [mk_seg "enresult" [] (S 293 6)])) (S 293 14) [(ELit [] (LOther "10") (S 293 15))] []) (S 293 18)); (EBlock [] [] (S 293 21) [(SExpr (ETry [] (ECall [] (EPath [] (mk_path false [mk_seg "enresult" [] (S 293 23)])) (S 293 31) [(ETuple [] (S 293 32) [] [])] []) (S 293 35)) None)])] [O S "," 293 19]) [O S "." 293 39; L S (LOther "0") 293 40]) [I S "as" 293 42; I S "u64" 293 45]) [] None [O S ";" 293 48]); (SLocalInit [] [I S "let" 295 5; I S "_" 295 9; O S "=" 295 11] (EClosure [mk_attr false (S 295 13) (MNameValue (mk_path false [mk_seg "hooq" [] (S 295 15); mk_seg "tag" [] (S 295 21)]) (VStr "closure" (S 295 27))); mk_attr false (S 296 5) (MPath (mk_path false [mk_seg "hooq" [] (S 296 7); mk_seg "skip" [] (S 296 13)]))] [O S "|" 297 5; I S "f" 297 6; O S ":" 297 7; I S "bool" 297 9; O S "|" 297 13; O S "-" 297 15; O S ">" 297 16; I S "Result" 297 18; O S "<" 297 24; G S Parenth [] 297 25; O S "," 297 27; G S Parenth [] 297 29; O S ">" 297 31] (RetPath (mk_path false [mk_seg "Result" [O S "<" 297 24; G S Parenth [] 297 25; O S "," 297 27; G S Parenth [] 297 29; O S ">" 297 31] (S 297 18)])) (EBlock [] [] (S 297 33) [(SExpr (ETry [mk_attr false (S 298 9) (MNameValue (mk_path false [mk_seg "hooq" [] (S 298 11); mk_seg "tag" [] (S 298 17)]) (VStr "sub scope in closure" (S 298 23)))] (ECall [] (EPath [] (mk_path false [mk_seg "enresult" [] (S 299 9)])) (S 299 17) [(ETuple [] (S 299 18) [] [])] []) (S 299 21)) (Some (S 299 22))); (SLocalInit [] [I S "let" 301 9; I S "_" 301 13; O S "=" 301 15] (ETry [] (ECall [] (EPath [] (mk_path false [mk_seg "enresult" [] (S 301 17)])) (S 301 25) [(ETry [] (ECall [] (EPath [] (mk_path false [mk_seg "enresult" [] (S 301 26)])) (S 301 34) [(ETuple [] (S 301 35) [] [])] []) (S 301 38))] []) (S 301 40)) [] None [O S ";" 301 41]); (SExpr (EIf [] [I S "if" 303 9] (EPath [] (mk_path false [mk_seg "f" [] (S 303 12)])) (S 303 14) [(SExpr (EReturn [] (S 304 13) (Some (ECall [] (EPath [] (mk_path false [mk_seg "Err" [] (S 304 20)])) (S 304 23) [(ETuple [] (S 304 24) [] [])] []))) (Some (S 304 27)))] [] None) None); (SExpr (ETry [] (ECall [] (EPath [] (mk_path false [mk_seg "enresult" [] (S 307 9)])) (S 307 17) [(ETry [] (ECall [] (EPath [] (mk_path false [mk_seg "enresult" [] (S 307 18)])) (S 307 26) [(ECall [] (EPath [] (mk_path false [mk_seg "enresult" [] (S 307 27)])) (S 307 35) [(ETuple [] (S 307 36) [] [])] [])] []) (S 307 40))] []) (S 307 42)) None)])) [] None [O S ";" 308 6]); (SItem (IConst [mk_attr false (S 310 5) (MNameValue (mk_path false [mk_seg "hooq" [] (S 310 7); mk_seg "tag" [] (S 310 13)]) (VStr "const block" (S 310 19))); mk_attr false (S 311 5) (MPath (mk_path false [mk_seg "hooq" [] (S 311 7); mk_seg "skip" [] (S 311 13)]))] [I S "const" 312 5; I S "_C" 312 11; O S ":" 312 13; G S Parenth [] 312 15; O S "=" 312 18] (EConst [] [I S "const" 312 20] (S 312 26) [(SLocalInit [] [I S "let" 313 9; I S "_" 313 13; O S "=" 313 15] (EClosure [] [O S "|" 313 17; O S "|" 313 18] RetNone (EBlock [] [] (S 313 20) [(SExpr (ETry [mk_attr false (S 314 13) (MNameValue (mk_path false [mk_seg "hooq" [] (S 314 15); mk_seg "tag" [] (S 314 21)]) (VStr "sub scope in const block" (S 314 27)))] (ECall [] (EPath [] (mk_path false [mk_seg "enresult" [] (S 315 13)])) (S 315 21) [(ETuple [] (S 315 22) [] [])] []) (S 315 25)) (Some (S 315 26))); (SExpr (ECall [] (EPath [] (mk_path false [mk_seg "Result" [O S ":" 317 19; O S ":" 317 20; O S "<" 317 21; G S Parenth [] 317 22; O S "," 317 24; G S Parenth [] 317 26; O S ">" 317 28] (S 317 13); mk_seg "Err" [] (S 317 31)])) (S 317 34) [(ETuple [] (S 317 35) [] [])] []) None)])) [] None [O S ";" 318 10])]) [O S ";" 319 6])); (SItem (IOther [] [I S "struct" 321 5; I S "Strct" 321 12; G S Brace [O S "#" 322 9; G S Bracket [I S "allow" 322 11; G S Parenth [I S "unused" 322 17] 322 16] 322 10; I S "field" 323 9; O S ":" 323 14; G S Parenth [] 323 16; O S "," 323 18; O S "#" 324 9; G S Bracket [I S "allow" 324 11; G S Parenth [I S "unused" 324 17] 324 16] 324 10; I S "field2" 325 9; O S ":" 325 15; G S Parenth [] 325 17; O S "," 325 19] 321 18])); (SLocalInit [] [I S "let" 331 5; I S "_" 331 9; O S "=" 331 11] (EStruct [mk_attr false (S 331 13) (MNameValue (mk_path false [mk_seg "hooq" [] (S 331 15); mk_seg "tag" [] (S 331 21)]) (VStr "struct" (S 331 27))); mk_attr false (S 332 5) (MPath (mk_path false [mk_seg "hooq" [] (S 332 7); mk_seg "skip" [] (S 332 13)]))] (mk_path false [mk_seg "Strct" [] (S 333 5)]) (S 333 11) [(FieldV [] [I S "field" 334 9] [O S ":" 334 14] (EParen [] (S 334 16) (EField [] (ETuple [] (S 334 17) [(ETry [] (ECall [] (EPath [] (mk_path false [mk_seg "enresult" [] (S 334 18)])) (S 334 26) [(ETuple [] (S 334 27) [] [])] []) (S 334 30)); (EBlock [] [] (S 334 33) [(SExpr (ETry [mk_attr false (S 335 13) (MNameValue (mk_path false [mk_seg "hooq" [] (S 335 15); mk_seg "tag" [] (S 335 21)]) (VStr "sub scope in struct field" (S 335 27)))] (ECall [] (EPath [] (mk_path false [mk_seg "enresult" [] (S 336 13)])) (S 336 21) [(ETuple [] (S 336 22) [] [])] []) (S 336 25)) None)])] [O S "," 334 31]) [O S "." 338 13; L S (LOther "0") 338 14]))); (FieldV [] [I S "field2" 339 9] [O S ":" 339 15] (EParen [] (S 339 17) (EField [] (ETuple [] (S 339 18) [(ETry [] (ECall [] (EPath [] (mk_path false [mk_seg "enresult" [] (S 339 19)])) (S 339 27) [(ETuple [] (S 339 28) [] [])] []) (S 339 31)); (EBlock [] [] (S 339 34) [(SExpr (ETry [mk_attr false (S 340 13) (MNameValue (mk_path false [mk_seg "hooq" [] (S 340 15); mk_seg "tag" [] (S 340 21)]) (VStr "sub scope in struct field" (S 340 27)))] (ECall [] (EPath [] (mk_path false [mk_seg "enresult" [] (S 341 13)])) (S 341 21) [(ETuple [] (S 341 22) [] [])] []) (S 341 25)) None)])] [O S "," 339 32]) [O S "." 343 13; L S (LOther "0") 343 14])))] [O S "," 338 16; O S "," 343 16] [] None) [] None [O S ";" 344 6]); (SLocalInit [] [I S "let" 346 5; I S "_" 346 9; O S "=" 346 11] (EStruct [mk_attr false (S 346 13) (MNameValue (mk_path false [mk_seg "hooq" [] (S 346 15); mk_seg "tag" [] (S 346 21)]) (VStr "field" (S 346 27)))] (mk_path false [mk_seg "Strct" [] (S 347 5)]) (S 347 11) [(FieldV [mk_attr false (S 348 9) (MPath (mk_path false [mk_seg "hooq" [] (S 348 11); mk_seg "skip" [] (S 348 17)]))] [I S "field" 349 9] [O S ":" 349 14] (EParen [] (S 349 16) (EField [] (ETuple [] (S 349 17) [(ETry [] (ECall [] (EPath [] (mk_path false [mk_seg "enresult" [] (S 349 18)])) (S 349 26) [(ETuple [] (S 349 27) [] [])] []) (S 349 30)); (EBlock [] [] (S 349 33) [(SExpr (ETry [mk_attr false (S 350 13) (MNameValue (mk_path false [mk_seg "hooq" [] (S 350 15); mk_seg "tag" [] (S 350 21)]) (VStr "sub scope in struct field" (S 350 27)))] (ECall [] (EPath [] (mk_path false [mk_seg "enresult" [] (S 351 13)])) (S 351 21) [(ETuple [] (S 351 22) [] [])] []) (S 351 25)) None)])] [O S "," 349 31]) [O S "." 353 13; L S (LOther "0") 353 14]))); (FieldV [] [I S "field2" 354 9] [O S ":" 354 15] (EParen [] (S 354 17) (EField [] (ETuple [] (S 354 18) [(ETry [] (ECall [] (EPath [] (mk_path false [mk_seg "enresult" [] (S 354 19)])) (S 354 27) [(ETuple [] (S 354 28) [] [])] []) (S 354 31)); (EBlock [] [] (S 354 34) [(SExpr (ETry [mk_attr false (S 355 13) (MNameValue (mk_path false [mk_seg "hooq" [] (S 355 15); mk_seg "tag" [] (S 355 21)]) (VStr "sub scope in struct field" (S 355 27)))] (ECall [] (EPath [] (mk_path false [mk_seg "enresult" [] (S 356 13)])) (S 356 21) [(ETuple [] (S 356 22) [] [])] []) (S 356 25)) None)])] [O S "," 354 32]) [O S "." 358 13; L S (LOther "0") 358 14])))] [O S "," 353 16; O S "," 358 16] [] None) [] None [O S ";" 359 6]); (SExpr (EForLoop [mk_attr false (S 361 5) (MNameValue (mk_path false [mk_seg "hooq" [] (S 361 7); mk_seg "tag" [] (S 361 13)]) (VStr "for_loop" (S 361 19))); mk_attr false (S 362 5) (MPath (mk_path false [mk_seg "hooq" [] (S 362 7); mk_seg "skip" [] (S 362 13)]))] [I S "for" 363 5; I S "_" 363 9; I S "in" 363 11] (ETry [] (ECall [] (EPath [] (mk_path false [mk_seg "enresult" [] (S 363 14)])) (S 363 22) [(EArray [] (S 363 23) [(EBlock [] [] (S 363 24) [(SExpr (ETry [mk_attr false (S 364 9) (MNameValue (mk_path false [mk_seg "hooq" [] (S 364 11); mk_seg "tag" [] (S 364 17)]) (VStr "sub scope in for loop expr" (S 364 23)))] (ECall [] (EPath [] (mk_path false [mk_seg "enresult" [] (S 365 9)])) (S 365 17) [(ETuple [] (S 365 18) [] [])] []) (S 365 21)) None)])] [])] []) (S 366 8)) (S 366 10) [(SExpr (ETry [mk_attr false (S 367 9) (MNameValue (mk_path false [mk_seg "hooq" [] (S 367 11); mk_seg "tag" [] (S 367 17)]) (VStr "sub scope in for loop" (S 367 23)))] (ECall [] (EPath [] (mk_path false [mk_seg "enresult" [] (S 368 9)])) (S 368 17) [(ETuple [] (S 368 18) [] [])] []) (S 368 21)) (Some (S 368 22)))]) None); (SExpr (EIf [mk_attr false (S 373 5) (MNameValue (mk_path false [mk_seg "hooq" [] (S 373 7); mk_seg "tag" [] (S 373 13)]) (VStr "if" (S 373 19))); mk_attr false (S 374 5) (MPath (mk_path false [mk_seg "hooq" [] (S 374 7); mk_seg "skip" [] (S 374 13)]))] [I S "if" 375 5] (ETry [] (ECall [] (EPath [] (mk_path false [mk_seg "enresult" [] (S 375 8)])) (S 375 16) [(EBlock [] [] (S 375 17) [(SExpr (ETry [mk_attr false (S 376 9) (MNameValue (mk_path false [mk_seg "hooq" [] (S 376 11); mk_seg "tag" [] (S 376 17)]) (VStr "sub scope in if condition" (S 376 23)))] (ECall [] (EPath [] (mk_path false [mk_seg "enresult" [] (S 377 9)])) (S 377 17) [(EPath [] (mk_path false [mk_seg "true" [] (S 377 18)]))] []) (S 377 23)) None)])] []) (S 378 7)) (S 378 9) [(SExpr (ETry [mk_attr false (S 379 9) (MNameValue (mk_path false [mk_seg "hooq" [] (S 379 11); mk_seg "tag" [] (S 379 17)]) (VStr "sub scope in if" (S 379 23)))] (ECall [] (EPath [] (mk_path false [mk_seg "enresult" [] (S 380 9)])) (S 380 17) [(ETuple [] (S 380 18) [] [])] []) (S 380 21)) (Some (S 380 22)))] [I S "else" 382 7] (Some (EIf [] [I S "if" 382 12] (ETry [] (ECall [] (EPath [] (mk_path false [mk_seg "enresult" [] (S 382 15)])) (S 382 23) [(EBlock [] [] (S 382 24) [(SExpr (ETry [mk_attr false (S 383 9) (MNameValue (mk_path false [mk_seg "hooq" [] (S 383 11); mk_seg "tag" [] (S 383 17)]) (VStr "sub scope in if condition" (S 383 23)))] (ECall [] (EPath [] (mk_path false [mk_seg "enresult" [] (S 384 9)])) (S 384 17) [(EPath [] (mk_path false [mk_seg "true" [] (S 384 18)]))] []) (S 384 23)) None)])] []) (S 385 7)) (S 385 9) [(SExpr (ETry [mk_attr false (S 386 9) (MNameValue (mk_path false [mk_seg "hooq" [] (S 386 11); mk_seg "tag" [] (S 386 17)]) (VStr "sub scope in else if" (S 386 23)))] (ECall [] (EPath [] (mk_path false [mk_seg "enresult" [] (S 387 9)])) (S 387 17) [(ETuple [] (S 387 18) [] [])] []) (S 387 21)) (Some (S 387 22)))] [I S "else" 388 7] (Some (EBlock [] [] (S 388 12) [(SExpr (ETry [mk_attr false (S 389 9) (MNameValue (mk_path false [mk_seg "hooq" [] (S 389 11); mk_seg "tag" [] (S 389 17)]) (VStr "sub scope in else" (S 389 23)))] (ECall [] (EPath [] (mk_path false [mk_seg "enresult" [] (S 390 9)])) (S 390 17) [(ETuple [] (S 390 18) [] [])] []) (S 390 21)) (Some (S 390 22)))]))))) (Some (S 391 6))); (SLocalInit [] [I S "let" 393 5; I S "_" 393 9; O S "=" 393 11] (EIndex [mk_attr false (S 393 13) (MNameValue (mk_path false [mk_seg "hooq" [] (S 393 15); mk_seg "tag" [] (S 393 21)]) (VStr "index" (S 393 27))); mk_attr false (S 394 5) (MPath (mk_path false [mk_seg "hooq" [] (S 394 7); mk_seg "skip" [] (S 394 13)]))] (ETry [] (ECall [] (EPath [] (mk_path false [mk_seg "enresult" [] (S 395 5)])) (S 395 13) [(EArray [] (S 395 14) [(ETry [] (ECall [] (EPath [] (mk_path false [mk_seg "enresult" [] (S 395 15)])) (S 395 23) [(ETuple [] (S 395 24) [] [])] []) (S 395 27)); (EBlock [] [] (S 395 30) [(SExpr (ETry [] (ECall [] (EPath [] (mk_path false [mk_seg "enresult" [] (S 395 32)])) (S 395 40) [(ETuple [] (S 395 41) [] [])] []) (S 395 44)) None)])] [O S "," 395 28])] []) (S 395 49)) (S 395 50) (EField [] (ETuple [] (S 395 51) [(ETry [] (ECall [] (EPath [] (mk_path false [mk_seg "enresult" [] (S 395 52)])) (S 395 60) [(ELit [] (LOther "0") (S 395 61))] []) (S 395 63)); (EBlock [] [] (S 395 66) [(SExpr (ETry [] (ECall [] (EPath [] (mk_path false [mk_seg "enresult" [] (S 395 68)])) (S 395 76) [(ETuple [] (S 395 77) [] [])] []) (S 395 80)) None)])] [O S "," 395 64]) [O S "." 395 84; L S (LOther "0") 395 85])) [] None [O S ";" 395 87]); (SExpr (EIf [mk_attr false (S 397 5) (MNameValue (mk_path false [mk_seg "hooq" [] (S 397 7); mk_seg "tag" [] (S 397 13)]) (VStr "let" (S 397 19)))] [I S "if" 398 5] (EBinary [] (ELet [] [I S "let" 398 8; I S "Err" 398 12; G S Parenth [G S Parenth [] 398 16] 398 15; O S "=" 398 20] (ECall [] (EPath [] (mk_path false [mk_seg "enresult" [] (S 398 22)])) (S 398 30) [(ETuple [] (S 398 31) [] [])] [])) [O S "&" 399 9; O S "&" 399 10] (ELet [mk_attr false (S 399 12) (MPath (mk_path false [mk_seg "hooq" [] (S 399 14); mk_seg "skip" [] (S 399 20)]))] [I S "let" 400 9; I S "Err" 400 13; G S Parenth [G S Parenth [] 400 17] 400 16; O S "=" 400 21] (ETry [] (ECall [] (EPath [] (mk_path false [mk_seg "enresult" [] (S 400 23)])) (S 400 31) [(EField [] (ETuple [] (S 400 32) [(ETry [] (ECall [] (EPath [] (mk_path false [mk_seg "enresult" [] (S 400 33)])) (S 400 41) [(ECall [] (EPath [] (mk_path false [mk_seg "enresult" [] (S 400 42)])) (S 400 50) [(ETuple [] (S 400 51) [] [])] [])] []) (S 400 55)); (EBlock [] [] (S 400 58) [(SExpr (ETry [] (ECall [] (EPath [] (mk_path false [mk_seg "enresult" [] (S 400 60)])) (S 400 68) [(ETuple [] (S 400 69) [] [])] []) (S 400 72)) None)])] [O S "," 400 56]) [O S "." 400 76; L S (LOther "0") 400 77])] []) (S 400 79)))) (S 401 5) [(SExpr (ETry [] (ECall [] (EPath [] (mk_path false [mk_seg "enresult" [] (S 402 9)])) (S 402 17) [(ETuple [] (S 402 18) [] [])] []) (S 402 21)) (Some (S 402 22)))] [] None) None); (SLocalInit [] [I S "let" 405 5; I S "mut" 405 9; I S "i" 405 13; O S "=" 405 15] (ELit [] (LOther "0") (S 405 17)) [] None [O S ";" 405 18]); (SLocalInit [] [I S "let" 407 5; I S "_" 407 9; O S "=" 407 11] (ETry [mk_attr false (S 407 13) (MNameValue (mk_path false [mk_seg "hooq" [] (S 407 15); mk_seg "tag" [] (S 407 21)]) (VStr "loop" (S 407 27))); mk_attr false (S 408 5) (MPath (mk_path false [mk_seg "hooq" [] (S 408 7); mk_seg "skip" [] (S 408 13)]))] (ELoop [] [I S "loop" 409 5] (S 409 10) [(SExpr (EIf [] [I S "if" 410 9] (EBinary [] (EPath [] (mk_path false [mk_seg "i" [] (S 410 12)])) [O S ">" 410 14] (ELit [] (LOther "0") (S 410 16))) (S 410 18) [(SExpr (EBreak [] [I S "break" 411 13] (Some (ECall [] (EPath [] (mk_path false [mk_seg "enresult" [] (S 411 19)])) (S 411 27) [(ETuple [] (S 411 28) [] [])] []))) (Some (S 411 31)))] [] None) None); (SExpr (EBinary [] (EPath [] (mk_path false [mk_seg "i" [] (S 414 9)])) [O S "+" 414 11; O S "=" 414 12] (ELit [] (LOther "1") (S 414 14))) (Some (S 414 15))); (SExpr (ETry [] (ECall [] (EPath [] (mk_path false [mk_seg "enresult" [] (S 416 9)])) (S 416 17) [(ETuple [] (S 416 18) [] [])] []) (S 416 21)) (Some (S 416 22)))]) (S 417 6)) [] None [O S ";" 417 7]); (SLocalInit [] [I S "let" 419 5; I S "_" 419 9; O S "=" 419 11] (EMacro [mk_attr false (S 419 13) (MNameValue (mk_path false [mk_seg "hooq" [] (S 419 15); mk_seg "tag" [] (S 419 21)]) (VStr "macro-outer" (S 419 27))); mk_attr false (S 420 5) (MPath (mk_path false [mk_seg "hooq" [] (S 420 7); mk_seg "skip" [] (S 420 13)]))] (Mac (mk_path false [mk_seg "vec" [] (S 421 5)]) Bracket (S 421 9) [I S "enresult" 421 10; G S Parenth [L S (LOther "0") 421 19] 421 18; O S "?" 421 21; O S "," 421 22; I S "enresult" 421 24; G S Parenth [L S (LOther "1") 421 33] 421 32; O S "?" 421 35; O S "," 421 36; G S Brace [O S "#" 422 9; G S Bracket [I S "hooq" 422 11; O S ":" 422 15; O S ":" 422 16; I S "tag" 422 17; O S "=" 422 21; L S (LStr "sub scope in macro-outer") 422 23] 422 10; I S "enresult" 423 9; G S Parenth [L S (LOther "2") 423 18] 423 17; O S "?" 423 20] 421 38] (Some [VExpr (ETry [] (ECall [] (EPath [] (mk_path false [mk_seg "enresult" [] (S 421 10)])) (S 421 18) [(ELit [] (LOther "0") (S 421 19))] []) (S 421 21)) [O S "," 421 22]; VExpr (ETry [] (ECall [] (EPath [] (mk_path false [mk_seg "enresult" [] (S 421 24)])) (S 421 32) [(ELit [] (LOther "1") (S 421 33))] []) (S 421 35)) [O S "," 421 36]; VExpr (EBlock [] [] (S 421 38) [(SExpr (ETry [mk_attr false (S 422 9) (MNameValue (mk_path false [mk_seg "hooq" [] (S 422 11); mk_seg "tag" [] (S 422 17)]) (VStr "sub scope in macro-outer" (S 422 23)))] (ECall [] (EPath [] (mk_path false [mk_seg "enresult" [] (S 423 9)])) (S 423 17) [(ELit [] (LOther "2") (S 423 18))] []) (S 423 20)) None)]) []]))) [] None [O S ";" 424 7]); (SLocalInit [] [I S "let" 426 5; I S "_" 426 9; O S "=" 426 11] (EMacro [mk_attr false (S 426 13) (MNameValue (mk_path false [mk_seg "hooq" [] (S 426 15); mk_seg "tag" [] (S 426 21)]) (VStr "macro-inner" (S 426 27)))] (Mac (mk_path false [mk_seg "vec" [] (S 427 5)]) Bracket (S 427 9) [O S "#" 428 9; G S Bracket [I S "hooq" 428 11; O S ":" 428 15; O S ":" 428 16; I S "skip" 428 17] 428 10; I S "vec" 429 9; O S "!" 429 12; G S Bracket [I S "enresult" 429 14; G S Parenth [L S (LOther "0") 429 23] 429 22; O S "?" 429 25; O S "," 429 26; I S "enresult" 429 28; G S Parenth [L S (LOther "1") 429 37] 429 36; O S "?" 429 39; O S "," 429 40; G S Brace [O S "#" 430 13; G S Bracket [I S "hooq" 430 15; O S ":" 430 19; O S ":" 430 20; I S "tag" 430 21; O S "=" 430 25; L S (LStr "sub scope in macro-inner") 430 27] 430 14; I S "enresult" 431 13; G S Parenth [L S (LOther "2") 431 22] 431 21; O S "?" 431 24] 429 42] 429 13; O S "," 432 11] (Some [VExpr (EMacro [mk_attr false (S 428 9) (MPath (mk_path false [mk_seg "hooq" [] (S 428 11); mk_seg "skip" [] (S 428 17)]))] (Mac (mk_path false [mk_seg "vec" [] (S 429 9)]) Bracket (S 429 13) [I S "enresult" 429 14; G S Parenth [L S (LOther "0") 429 23] 429 22; O S "?" 429 25; O S "," 429 26; I S "enresult" 429 28; G S Parenth [L S (LOther "1") 429 37] 429 36; O S "?" 429 39; O S "," 429 40; G S Brace [O S "#" 430 13; G S Bracket [I S "hooq" 430 15; O S ":" 430 19; O S ":" 430 20; I S "tag" 430 21; O S "=" 430 25; L S (LStr "sub scope in macro-inner") 430 27] 430 14; I S "enresult" 431 13; G S Parenth [L S (LOther "2") 431 22] 431 21; O S "?" 431 24] 429 42] (Some [VExpr (ETry [] (ECall [] (EPath [] (mk_path false [mk_seg "enresult" [] (S 429 14)])) (S 429 22) [(ELit [] (LOther "0") (S 429 23))] []) (S 429 25)) [O S "," 429 26]; VExpr (ETry [] (ECall [] (EPath [] (mk_path false [mk_seg "enresult" [] (S 429 28)])) (S 429 36) [(ELit [] (LOther "1") (S 429 37))] []) (S 429 39)) [O S "," 429 40]; VExpr (EBlock [] [] (S 429 42) [(SExpr (ETry [mk_attr false (S 430 13) (MNameValue (mk_path false [mk_seg "hooq" [] (S 430 15); mk_seg "tag" [] (S 430 21)]) (VStr "sub scope in macro-inner" (S 430 27)))] (ECall [] (EPath [] (mk_path false [mk_seg "enresult" [] (S 431 13)])) (S 431 21) [(ELit [] (LOther "2") (S 431 22))] []) (S 431 24)) None)]) []]))) [O S "," 432 11]]))) [] None [O S ";" 433 6]); (SLocalInit [mk_attr false (S 435 5) (MList (mk_path false [mk_seg "allow" [] (S 435 7)]) Parenth [I S "clippy" 435 13; O S ":" 435 19; O S ":" 435 20; I S "unit_arg" 435 21] (S 435 12))] [I S "let" 436 5; I S "_" 436 9; O S "=" 436 11] (ETry [mk_attr false (S 436 13) (MNameValue (mk_path false [mk_seg "hooq" [] (S 436 15); mk_seg "tag" [] (S 436 21)]) (VStr "match" (S 436 27))); mk_attr false (S 437 5) (MPath (mk_path false [mk_seg "hooq" [] (S 437 7); mk_seg "skip" [] (S 437 13)]))] (EMatch [] [I S "match" 438 5] (ETry [] (ECall [] (EPath [] (mk_path false [mk_seg "enresult" [] (S 438 11)])) (S 438 19) [(ECall [] (EPath [] (mk_path false [mk_seg "Some" [] (S 438 20)])) (S 438 24) [(EBlock [] [] (S 438 25) [(SExpr (ETry [mk_attr false (S 439 9) (MNameValue (mk_path false [mk_seg "hooq" [] (S 439 11); mk_seg "tag" [] (S 439 17)]) (VStr "sub scope in match expr" (S 439 23)))] (ECall [] (EPath [] (mk_path false [mk_seg "enresult" [] (S 440 9)])) (S 440 17) [(ETuple [] (S 440 18) [] [])] []) (S 440 21)) None)])] [])] []) (S 441 8)) (S 441 10) [(Arm [] [I S "Some" 442 9; G S Parenth [G S Parenth [] 442 14] 442 13] [I S "if" 442 18] (Some (ETry [] (ECall [] (EPath [] (mk_path false [mk_seg "enresult" [] (S 442 21)])) (S 442 29) [(EPath [] (mk_path false [mk_seg "true" [] (S 442 30)]))] []) (S 442 35))) [O S "=" 442 37; O S ">" 442 38] (EBlock [] [] (S 442 40) [(SExpr (ETry [] (ECall [] (EPath [] (mk_path false [mk_seg "enresult" [] (S 443 13)])) (S 443 21) [(ETuple [] (S 443 22) [] [])] []) (S 443 25)) (Some (S 443 26))); (SExpr (ECall [] (EPath [] (mk_path false [mk_seg "enresult" [] (S 444 13)])) (S 444 21) [(ETuple [] (S 444 22) [] [])] []) None)]) []); (Arm [] [I S "Some" 446 9; G S Parenth [G S Parenth [] 446 14] 446 13] [] None [O S "=" 446 18; O S ">" 446 19] (EBlock [] [] (S 446 21) [(SExpr (ETry [] (ECall [] (EPath [] (mk_path false [mk_seg "enresult" [] (S 447 13)])) (S 447 21) [(ETuple [] (S 447 22) [] [])] []) (S 447 25)) (Some (S 447 26))); (SExpr (ECall [] (EPath [] (mk_path false [mk_seg "enresult" [] (S 448 13)])) (S 448 21) [(ETuple [] (S 448 22) [] [])] []) None)]) []); (Arm [] [I S "None" 450 9] [I S "if" 450 14] (Some (ETry [] (ECall [] (EPath [] (mk_path false [mk_seg "enresult" [] (S 450 17)])) (S 450 25) [(EPath [] (mk_path false [mk_seg "true" [] (S 450 26)]))] []) (S 450 31))) [O S "=" 450 33; O S ">" 450 34] (ECall [] (EPath [] (mk_path false [mk_seg "Err" [] (S 450 36)])) (S 450 39) [(ETuple [] (S 450 40) [] [])] []) [O S "," 450 43]); (Arm [] [I S "None" 451 9] [] None [O S "=" 451 14; O S ">" 451 15] (ECall [] (EPath [] (mk_path false [mk_seg "enresult" [] (S 451 17)])) (S 451 25) [(ETuple [] (S 451 26) [] [])] []) [O S "," 451 29])]) (S 452 6)) [] None [O S ";" 452 7]); (SItem (IImpl [] [I S "impl" 454 5; I S "Strct" 454 10] (S 454 16) [(IIFn [] [] (mk_sig "method" (RetPath (mk_path false [mk_seg "Result" [O S "<" 455 42; O S "&" 455 43; I S "Self" 455 44; O S "," 455 48; G S Parenth [] 455 50; O S ">" 455 52] (S 455 36)])) [I S "fn" 455 9; I S "method" 455 12; G S Parenth [O S "&" 455 19; I S "self" 455 20; O S "," 455 24; I S "_" 455 26; O S ":" 455 27; G S Parenth [] 455 29] 455 18; O S "-" 455 33; O S ">" 455 34; I S "Result" 455 36; O S "<" 455 42; O S "&" 455 43; I S "Self" 455 44; O S "," 455 48; G S Parenth [] 455 50; O S ">" 455 52]) (S 455 54) [(SExpr (ECall [] (EPath [] (mk_path false [mk_seg "Ok" [] (S 456 13)])) (S 456 15) [(EPath [] (mk_path false [mk_seg "self" [] (S 456 16)]))] []) None)])])); (SLocalInit [] [I S "let" 460 5; I S "s" 460 9; O S "=" 460 11] (EStruct [] (mk_path false [mk_seg "Strct" [] (S 460 13)]) (S 460 19) [(FieldV [] [I S "field" 461 9] [O S ":" 461 14] (ETuple [] (S 461 16) [] [])); (FieldV [] [I S "field2" 462 9] [O S ":" 462 15] (ETuple [] (S 462 17) [] []))] [O S "," 461 18; O S "," 462 19] [] None) [] None [O S ";" 463 6]); (SExpr (ETry [mk_attr false (S 465 5) (MNameValue (mk_path false [mk_seg "hooq" [] (S 465 7); mk_seg "tag" [] (S 465 13)]) (VStr "method_call" (S 465 19))); mk_attr false (S 466 5) (MPath (mk_path false [mk_seg "hooq" [] (S 466 7); mk_seg "skip" [] (S 466 13)]))] (EMethodCall [] (ETry [] (EMethodCall [] (EPath [] (mk_path false [mk_seg "s" [] (S 467 5)])) [O S "." 467 6; I S "method" 467 7] (S 467 13) [(ETry [] (ECall [] (EPath [] (mk_path false [mk_seg "enresult" [] (S 467 14)])) (S 467 22) [(ETuple [] (S 467 23) [] [])] []) (S 467 26))] []) (S 467 28)) [O S "." 467 29; I S "method" 467 30] (S 467 36) [(EBlock [] [] (S 467 37) [(SExpr (ETry [mk_attr false (S 468 9) (MNameValue (mk_path false [mk_seg "hooq" [] (S 468 11); mk_seg "tag" [] (S 468 17)]) (VStr "sub scope in method call" (S 468 23)))] (ECall [] (EPath [] (mk_path false [mk_seg "enresult" [] (S 469 9)])) (S 469 17) [(ETuple [] (S 469 18) [] [])] []) (S 469 21)) (Some (S 469 22))); (SExpr (ETry [] (ECall [] (EPath [] (mk_path false [mk_seg "enresult" [] (S 471 9)])) (S 471 17) [(ETuple [] (S 471 18) [] [])] []) (S 471 21)) None)])] []) (S 472 7)) (Some (S 472 8))); (SLocalInit [] [I S "let" 474 5; I S "_" 474 9; O S "=" 474 11] (ETry [mk_attr false (S 474 13) (MNameValue (mk_path false [mk_seg "hooq" [] (S 474 15); mk_seg "tag" [] (S 474 21)]) (VStr "paren" (S 474 27))); mk_attr false (S 475 5) (MPath (mk_path false [mk_seg "hooq" [] (S 475 7); mk_seg "skip" [] (S 475 13)]))] (EParen [] (S 476 5) (ETry [] (ECall [] (EPath [] (mk_path false [mk_seg "enresult" [] (S 476 6)])) (S 476 14) [(EBlock [] [] (S 476 15) [(SExpr (ETry [] (ECall [] (EPath [] (mk_path false [mk_seg "enresult" [] (S 476 17)])) (S 476 25) [(ECall [] (EPath [] (mk_path false [mk_seg "enresult" [] (S 476 26)])) (S 476 34) [(ETuple [] (S 476 35) [] [])] [])] []) (S 476 39)) None)])] []) (S 476 43))) (S 476 45)) [] None [O S ";" 476 46]); (SLocalInit [] [I S "let" 481 5; I S "_" 481 9; O S "=" 481 11] (ERange [] (Some (ETry [mk_attr false (S 481 13) (MNameValue (mk_path false [mk_seg "hooq" [] (S 481 15); mk_seg "tag" [] (S 481 21)]) (VStr "range-1" (S 481 27))); mk_attr false (S 482 5) (MPath (mk_path false [mk_seg "hooq" [] (S 482 7); mk_seg "skip" [] (S 482 13)]))] (ECall [] (EPath [] (mk_path false [mk_seg "enresult" [] (S 483 5)])) (S 483 13) [(EField [] (ETuple [] (S 484 9) [(ETry [] (ECall [] (EPath [] (mk_path false [mk_seg "enresult" [] (S 484 10)])) (S 484 18) [(ELit [] (LOther "0") (S 484 19))] []) (S 484 21)); (EBlock [] [] (S 484 24) [(SExpr (ETry [] (ECall [] (EPath [] (mk_path false [mk_seg "enresult" [] (S 485 13)])) (S 485 21) [(ETuple [] (S 485 22) [] [])] []) (S 485 25)) (Some (S 485 26)))])] [O S "," 484 22]) [O S "." 487 13; L S (LOther "0") 487 14])] [O S "," 487 15]) (S 488 6))) [O S "." 489 9; O S "." 489 10] (Some (ETry [] (ECall [] (EPath [] (mk_path false [mk_seg "enresult" [] (S 489 11)])) (S 489 19) [(EField [] (ETuple [] (S 490 13) [(ETry [] (ECall [] (EPath [] (mk_path false [mk_seg "enresult" [] (S 490 14)])) (S 490 22) [(ELit [] (LOther "1") (S 490 23))] []) (S 490 25)); (EBlock [] [] (S 490 28) [(SExpr (ETry [] (ECall [] (EPath [] (mk_path false [mk_seg "enresult" [] (S 491 17)])) (S 491 25) [(ETuple [] (S 491 26) [] [])] []) (S 491 29)) (Some (S 491 30)))])] [O S "," 490 26]) [O S "." 493 17; L S (LOther "0") 493 18])] [O S "," 493 19]) (S 494 10)))) [] None [O S ";" 494 11]); (SLocalInit [] [I S "let" 496 5; I S "_" 496 9; O S "=" 496 11] (ERange [] (Some (ETry [mk_attr false (S 496 13) (MNameValue (mk_path false [mk_seg "hooq" [] (S 496 15); mk_seg "tag" [] (S 496 21)]) (VStr "range-2" (S 496 27)))] (ECall [] (EPath [] (mk_path false [mk_seg "enresult" [] (S 497 5)])) (S 497 13) [(EField [] (ETuple [] (S 498 9) [(ETry [] (ECall [] (EPath [] (mk_path false [mk_seg "enresult" [] (S 498 10)])) (S 498 18) [(ELit [] (LOther "0") (S 498 19))] []) (S 498 21)); (EBlock [] [] (S 498 24) [(SExpr (ETry [] (ECall [] (EPath [] (mk_path false [mk_seg "enresult" [] (S 499 13)])) (S 499 21) [(ETuple [] (S 499 22) [] [])] []) (S 499 25)) (Some (S 499 26)))])] [O S "," 498 22]) [O S "." 501 13; L S (LOther "0") 501 14])] [O S "," 501 15]) (S 502 6))) [O S "." 503 9; O S "." 503 10] (Some (EParen [] (S 503 11) (ETry [mk_attr false (S 503 12) (MPath (mk_path false [mk_seg "hooq" [] (S 503 14); mk_seg "skip" [] (S 503 20)]))] (ECall [] (EPath [] (mk_path false [mk_seg "enresult" [] (S 504 9)])) (S 504 17) [(EField [] (ETuple [] (S 505 13) [(ETry [] (ECall [] (EPath [] (mk_path false [mk_seg "enresult" [] (S 505 14)])) (S 505 22) [(ELit [] (LOther "1") (S 505 23))] []) (S 505 25)); (EBlock [] [] (S 505 28) [(SExpr (ETry [] (ECall [] (EPath [] (mk_path false [mk_seg "enresult" [] (S 506 17)])) (S 506 25) [(ETuple [] (S 506 26) [] [])] []) (S 506 29)) (Some (S 506 30)))])] [O S "," 505 26]) [O S "." 508 17; L S (LOther "0") 508 18])] [O S "," 508 19]) (S 509 10))))) [] None [O S ";" 509 12]); (SLocalInit [] [I S "let" 513 5; I S "_" 513 9; O S "=" 513 11] (ERepeat [mk_attr false (S 513 13) (MNameValue (mk_path false [mk_seg "hooq" [] (S 513 15); mk_seg "tag" [] (S 513 21)]) (VStr "repeat" (S 513 27))); mk_attr false (S 514 5) (MPath (mk_path false [mk_seg "hooq" [] (S 514 7); mk_seg "skip" [] (S 514 13)]))] (S 515 5) (ETry [] (ECall [] (EPath [] (mk_path false [mk_seg "enresult" [] (S 515 6)])) (S 515 14) [(EField [] (ETuple [] (S 515 15) [(ETry [] (ECall [] (EPath [] (mk_path false [mk_seg "enresult" [] (S 515 16)])) (S 515 24) [(ELit [] (LOther "0") (S 515 25))] []) (S 515 27)); (EBlock [] [] (S 515 30) [(SExpr (ETry [] (ECall [] (EPath [] (mk_path false [mk_seg "enresult" [] (S 515 32)])) (S 515 40) [(ETuple [] (S 515 41) [] [])] []) (S 515 44)) None)])] [O S "," 515 28]) [O S "." 515 48; L S (LOther "0") 515 49])] []) (S 515 51)) [O S ";" 515 52] (EBlock [] [] (S 515 54) [(SItem (IFn [] [] (mk_sig "_f" (RetPath (mk_path false [mk_seg "Result" [O S "<" 516 26; G S Parenth [] 516 27; O S "," 516 29; G S Parenth [] 516 31; O S ">" 516 33] (S 516 20)])) [I S "fn" 516 9; I S "_f" 516 12; G S Parenth [] 516 14; O S "-" 516 17; O S ">" 516 18; I S "Result" 516 20; O S "<" 516 26; G S Parenth [] 516 27; O S "," 516 29; G S Parenth [] 516 31; O S ">" 516 33]) (S 516 35) [(SExpr (ETry [] (ECall [] (EPath [] (mk_path false [mk_seg "enresult" [] (S 517 13)])) (S 517 21) [(ETuple [] (S 517 22) [] [])] []) (S 517 25)) (Some (S 517 26))); (SExpr (ECall [] (EPath [] (mk_path false [mk_seg "Err" [] (S 519 13)])) (S 519 16) [(ETuple [] (S 519 17) [] [])] []) None)])); (SExpr (ELit [] (LOther "5") (S 522 9)) None)])) [] None [O S ";" 523 7]); (SLocalInit [] [I S "let" 529 5; I S "_" 529 9; O S "=" 529 11] (ETuple [mk_attr false (S 529 13) (MNameValue (mk_path false [mk_seg "hooq" [] (S 529 15); mk_seg "tag" [] (S 529 21)]) (VStr "tuple" (S 529 27))); mk_attr false (S 530 5) (MPath (mk_path false [mk_seg "hooq" [] (S 530 7); mk_seg "skip" [] (S 530 13)]))] (S 531 5) [(ETry [] (ECall [] (EPath [] (mk_path false [mk_seg "enresult" [] (S 531 6)])) (S 531 14) [(ETuple [] (S 531 15) [] [])] []) (S 531 18)); (EBlock [] [] (S 531 21) [(SExpr (ETry [mk_attr false (S 532 9) (MNameValue (mk_path false [mk_seg "hooq" [] (S 532 11); mk_seg "tag" [] (S 532 17)]) (VStr "sub scope in tuple" (S 532 23)))] (ECall [] (EPath [] (mk_path false [mk_seg "enresult" [] (S 533 9)])) (S 533 17) [(ETuple [] (S 533 18) [] [])] []) (S 533 21)) None)])] [O S "," 531 19]) [] None [O S ";" 534 7]); (SLocalInit [] [I S "let" 536 5; I S "_" 536 9; O S "=" 536 11] (EUnary [mk_attr false (S 536 13) (MNameValue (mk_path false [mk_seg "hooq" [] (S 536 15); mk_seg "tag" [] (S 536 21)]) (VStr "unary" (S 536 27))); mk_attr false (S 537 5) (MPath (mk_path false [mk_seg "hooq" [] (S 537 7); mk_seg "skip" [] (S 537 13)]))] [O S "!" 538 5] (ETry [] (ECall [] (EPath [] (mk_path false [mk_seg "enresult" [] (S 538 6)])) (S 538 14) [(EField [] (ETuple [] (S 538 15) [(ETry [] (ECall [] (EPath [] (mk_path false [mk_seg "enresult" [] (S 538 16)])) (S 538 24) [(EPath [] (mk_path false [mk_seg "true" [] (S 538 25)]))] []) (S 538 30)); (EBlock [] [] (S 538 33) [(SExpr (ETry [] (ECall [] (EPath [] (mk_path false [mk_seg "enresult" [] (S 538 35)])) (S 538 43) [(ETuple [] (S 538 44) [] [])] []) (S 538 47)) None)])] [O S "," 538 31]) [O S "." 538 51; L S (LOther "0") 538 52])] []) (S 538 54))) [] None [O S ";" 538 55]); (SLocalInit [] [I S "let" 540 5; I S "_" 540 9; O S "=" 540 11] (ETry [mk_attr false (S 540 13) (MNameValue (mk_path false [mk_seg "hooq" [] (S 540 15); mk_seg "tag" [] (S 540 21)]) (VStr "unsafe" (S 540 27))); mk_attr false (S 541 5) (MPath (mk_path false [mk_seg "hooq" [] (S 541 7); mk_seg "skip" [] (S 541 13)]))] (EUnsafe [] [I S "unsafe" 542 5] (S 542 12) [(SItem (IFn [] [] (mk_sig "unsafe_enresult" (RetPath (mk_path false [mk_seg "Result" [O S "<" 543 57; I S "T" 543 58; O S "," 543 59; G S Parenth [] 543 61; O S ">" 543 63] (S 543 51)])) [I S "unsafe" 543 9; I S "fn" 543 16; I S "unsafe_enresult" 543 19; O S "<" 543 34; I S "T" 543 35; O S ">" 543 36; G S Parenth [I S "value" 543 38; O S ":" 543 43; I S "T" 543 45] 543 37; O S "-" 543 48; O S ">" 543 49; I S "Result" 543 51; O S "<" 543 57; I S "T" 543 58; O S "," 543 59; G S Parenth [] 543 61; O S ">" 543 63]) (S 543 65) [(SExpr (ECall [] (EPath [] (mk_path false [mk_seg "Ok" [] (S 544 13)])) (S 544 15) [(EPath [] (mk_path false [mk_seg "value" [] (S 544 16)]))] []) None)])); (SExpr (ETry [mk_attr false (S 547 9) (MNameValue (mk_path false [mk_seg "hooq" [] (S 547 11); mk_seg "tag" [] (S 547 17)]) (VStr "sub scope in unsafe" (S 547 23)))] (ECall [] (EPath [] (mk_path false [mk_seg "unsafe_enresult" [] (S 548 9)])) (S 548 24) [(ETuple [] (S 548 25) [] [])] []) (S 548 28)) (Some (S 548 29))); (SExpr (ECall [] (EPath [] (mk_path false [mk_seg "unsafe_enresult" [] (S 550 9)])) (S 550 24) [(ETuple [] (S 550 25) [] [])] []) None)]) (S 551 6)) [] None [O S ";" 551 7]); (SExpr (EWhile [mk_attr false (S 553 5) (MNameValue (mk_path false [mk_seg "hooq" [] (S 553 7); mk_seg "tag" [] (S 553 13)]) (VStr "while" (S 553 19))); mk_attr false (S 554 5) (MPath (mk_path false [mk_seg "hooq" [] (S 554 7); mk_seg "skip" [] (S 554 13)]))] [I S "while" 555 5] (EField [] (ETuple [] (S 555 11) [(ETry [] (ECall [] (EPath [] (mk_path false [mk_seg "enresult" [] (S 555 12)])) (S 555 20) [(EPath [] (mk_path false [mk_seg "false" [] (S 555 21)]))] []) (S 555 27)); (EBlock [] [] (S 555 30) [(SExpr (ETry [] (ECall [] (EPath [] (mk_path false [mk_seg "enresult" [] (S 556 9)])) (S 556 17) [(ETuple [] (S 556 18) [] [])] []) (S 556 21)) (Some (S 556 22)))])] [O S "," 555 28]) [O S "." 558 9; L S (LOther "0") 558 10]) (S 559 5) [(SExpr (ETry [mk_attr false (S 560 9) (MNameValue (mk_path false [mk_seg "hooq" [] (S 560 11); mk_seg "tag" [] (S 560 17)]) (VStr "sub scope in while" (S 560 23)))] (ECall [] (EPath [] (mk_path false [mk_seg "enresult" [] (S 561 9)])) (S 561 17) [(ETuple [] (S 561 18) [] [])] []) (S 561 21)) (Some (S 561 22)))]) None); (SExpr (ECall [] (EPath [] (mk_path false [mk_seg "Err" [] (S 566 5)])) (S 566 8) [(ETuple [] (S 566 9) [] [])] []) None)]).
Definition args_special_skip_detail_3 : list meta := let S := at_ "hooq-macros/tests/special/skip_detail.rs" in [].
Definition rec_special_skip_detail_3 : list string :=
  ["fn skip_expr ( ) - > Result < ( ) , ( ) > { let _ = { enresult ( ( ) ) ? } ; let _ = { enresult ( ( enresult ( ( ) ) ? , { enresult ( ( ) ) . inspect";
   "( | _ | { { : : std : : io : : _print ( format_args ! ( ""tag:\s{0}\n"" , ""sub\sscope\sin\sfunction\sargs."" ) ) ; } ; } ) ? } ) ) ? } ; let _f = | f :";
   "bool | - > Result < ( ( ) , ( ) ) , ( ) > { if f { return Ok ( ( enresult ( ( ) ) ? , { enresult ( ( ) ) . inspect ( | _ | { { : : std : : io : :";
   "_print ( format_args ! ( ""tag:\s{0}\n"" , ""return"" ) ) ; } ; } ) ? } ) ) ; } Ok ( ( ( ) , ( ) ) ) . inspect ( | _ | { { : : std : : io : : _print (";
   "format_args ! ( ""tag:\s{0}\n"" , ""return"" ) ) ; } ; } ) } ; let _ = [ enresult ( 1 ) ? , enresult ( 2 ) ? , { enresult ( 3 ) . inspect ( | _ | { { : :";
   "std : : io : : _print ( format_args ! ( ""tag:\s{0}\n"" , ""sub\sscope\sin\sarray"" ) ) ; } ; } ) ? } ] ; let _ = { let _ = enresult ( enresult ( ( ) ) .";
   "inspect ( | _ | { { : : std : : io : : _print ( format_args ! ( ""tag:\s{0}\n"" , ""block"" ) ) ; } ; } ) ? ) . inspect ( | _ | { { : : std : : io : :";
   "_print ( format_args ! ( ""tag:\s{0}\n"" , ""block"" ) ) ; } ; } ) ? ; enresult ( enresult ( enresult ( ( ) ) ) . inspect ( | _ | { { : : std : : io : :";
   "_print ( format_args ! ( ""tag:\s{0}\n"" , ""block"" ) ) ; } ; } ) ? ) . inspect ( | _ | { { : : std : : io : : _print ( format_args ! ( ""tag:\s{0}\n"" ,";
   """block"" ) ) ; } ; } ) ? } ? ; enresult ( enresult ( enresult ( { enresult ( ( ) ) . inspect ( | _ | { { : : std : : io : : _print ( format_args ! (";
   """tag:\s{0}\n"" , ""sub\sscope\sin\scall"" ) ) ; } ; } ) ? } ) ? ) ? ) ? ; ( ( enresult ( | | { enresult ( ( ) ) . inspect ( | _ | { { : : std : : io : :";
   "_print ( format_args ! ( ""tag:\s{0}\n"" , ""call-2"" ) ) ; } ; } ) ? ; enresult ( ( ) ) } ) ? , { enresult ( ( ) ) . inspect ( | _ | { { : : std : : io :";
   ": _print ( format_args ! ( ""tag:\s{0}\n"" , ""call-2"" ) ) ; } ; } ) ? ; } ) . 0 ) ( ) ? ; let _ = ( enresult ( 10 ) ? , { enresult ( ( ) ) . inspect ( |";
   "_ | { { : : std : : io : : _print ( format_args ! ( ""tag:\s{0}\n"" , ""cast"" ) ) ; } ; } ) ? } ) . 0 as u64 ; let _ = | f : bool | - > Result < ( ) , (";
   ") > { enresult ( ( ) ) . inspect ( | _ | { { : : std : : io : : _print ( format_args ! ( ""tag:\s{0}\n"" , ""sub\sscope\sin\sclosure"" ) ) ; } ; } ) ? ;";
   "let _ = enresult ( enresult ( ( ) ) . inspect ( | _ | { { : : std : : io : : _print ( format_args ! ( ""tag:\s{0}\n"" , ""closure"" ) ) ; } ; } ) ? ) .";
   "inspect ( | _ | { { : : std : : io : : _print ( format_args ! ( ""tag:\s{0}\n"" , ""closure"" ) ) ; } ; } ) ? ; if f { return Err ( ( ) ) . inspect ( | _";
   "| { { : : std : : io : : _print ( format_args ! ( ""tag:\s{0}\n"" , ""closure"" ) ) ; } ; } ) ; } enresult ( enresult ( enresult ( ( ) ) ) . inspect ( | _";
   "| { { : : std : : io : : _print ( format_args ! ( ""tag:\s{0}\n"" , ""closure"" ) ) ; } ; } ) ? ) . inspect ( | _ | { { : : std : : io : : _print (";
   "format_args ! ( ""tag:\s{0}\n"" , ""closure"" ) ) ; } ; } ) ? . inspect ( | _ | { { : : std : : io : : _print ( format_args ! ( ""tag:\s{0}\n"" , ""closure""";
   ") ) ; } ; } ) } ; const _C : ( ) = const { let _ = | | { enresult ( ( ) ) . inspect ( | _ | { { : : std : : io : : _print ( format_args ! (";
   """tag:\s{0}\n"" , ""sub\sscope\sin\sconst\sblock"" ) ) ; } ; } ) ? ; Result : : < ( ) , ( ) > : : Err ( ( ) ) . inspect ( | _ | { { : : std : : io : :";
   "_print ( format_args ! ( ""tag:\s{0}\n"" , ""const\sblock"" ) ) ; } ; } ) } ; } ; struct Strct { # [ allow ( unused ) ] field : ( ) , # [ allow ( unused )";
   "] field2 : ( ) } let _ = Strct { field : ( ( enresult ( ( ) ) ? , { enresult ( ( ) ) . inspect ( | _ | { { : : std : : io : : _print ( format_args ! (";
   """tag:\s{0}\n"" , ""sub\sscope\sin\sstruct\sfield"" ) ) ; } ; } ) ? } ) . 0 ) , field2 : ( ( enresult ( ( ) ) ? , { enresult ( ( ) ) . inspect ( | _ | { {";
   ": : std : : io : : _print ( format_args ! ( ""tag:\s{0}\n"" , ""sub\sscope\sin\sstruct\sfield"" ) ) ; } ; } ) ? } ) . 0 ) } ; let _ = Strct { field : ( (";
   "enresult ( ( ) ) ? , { enresult ( ( ) ) . inspect ( | _ | { { : : std : : io : : _print ( format_args ! ( ""tag:\s{0}\n"" ,";
   """sub\sscope\sin\sstruct\sfield"" ) ) ; } ; } ) ? } ) . 0 ) , field2 : ( ( enresult ( ( ) ) . inspect ( | _ | { { : : std : : io : : _print (";
   "format_args ! ( ""tag:\s{0}\n"" , ""field"" ) ) ; } ; } ) ? , { enresult ( ( ) ) . inspect ( | _ | { { : : std : : io : : _print ( format_args ! (";
   """tag:\s{0}\n"" , ""sub\sscope\sin\sstruct\sfield"" ) ) ; } ; } ) ? } ) . 0 ) } ; for _ in enresult ( [ { enresult ( ( ) ) . inspect ( | _ | { { : : std :";
   ": io : : _print ( format_args ! ( ""tag:\s{0}\n"" , ""sub\sscope\sin\sfor\sloop\sexpr"" ) ) ; } ; } ) ? } ] ) ? { enresult ( ( ) ) . inspect ( | _ | { { :";
   ": std : : io : : _print ( format_args ! ( ""tag:\s{0}\n"" , ""sub\sscope\sin\sfor\sloop"" ) ) ; } ; } ) ? ; } if enresult ( { enresult ( true ) . inspect";
   "( | _ | { { : : std : : io : : _print ( format_args ! ( ""tag:\s{0}\n"" , ""sub\sscope\sin\sif\scondition"" ) ) ; } ; } ) ? } ) ? { enresult ( ( ) ) .";
   "inspect ( | _ | { { : : std : : io : : _print ( format_args ! ( ""tag:\s{0}\n"" , ""sub\sscope\sin\sif"" ) ) ; } ; } ) ? ; } else if enresult ( { enresult";
   "( true ) . inspect ( | _ | { { : : std : : io : : _print ( format_args ! ( ""tag:\s{0}\n"" , ""sub\sscope\sin\sif\scondition"" ) ) ; } ; } ) ? } ) .";
   "inspect ( | _ | { { : : std : : io : : _print ( format_args ! ( ""tag:\s{0}\n"" , ""if"" ) ) ; } ; } ) ? { enresult ( ( ) ) . inspect ( | _ | { { : : std";
   ": : io : : _print ( format_args ! ( ""tag:\s{0}\n"" , ""sub\sscope\sin\selse\sif"" ) ) ; } ; } ) ? ; } else { enresult ( ( ) ) . inspect ( | _ | { { : :";
   "std : : io : : _print ( format_args ! ( ""tag:\s{0}\n"" , ""sub\sscope\sin\selse"" ) ) ; } ; } ) ? ; } ; let _ = enresult ( [ enresult ( ( ) ) ? , {";
   "enresult ( ( ) ) . inspect ( | _ | { { : : std : : io : : _print ( format_args ! ( ""tag:\s{0}\n"" , ""index"" ) ) ; } ; } ) ? } ] ) ? [ ( enresult ( 0 )";
   "? , { enresult ( ( ) ) . inspect ( | _ | { { : : std : : io : : _print ( format_args ! ( ""tag:\s{0}\n"" , ""index"" ) ) ; } ; } ) ? } ) . 0 ] ; if let";
   "Err ( ( ) ) = enresult ( ( ) ) & & let Err ( ( ) ) = enresult ( ( enresult ( enresult ( ( ) ) ) ? , { enresult ( ( ) ) . inspect ( | _ | { { : : std :";
   ": io : : _print ( format_args ! ( ""tag:\s{0}\n"" , ""let"" ) ) ; } ; } ) ? } ) . 0 ) ? { enresult ( ( ) ) . inspect ( | _ | { { : : std : : io : : _print";
   "( format_args ! ( ""tag:\s{0}\n"" , ""let"" ) ) ; } ; } ) ? ; } let mut i = 0 ; let _ = loop { if i > 0 { break enresult ( ( ) ) ; } i + = 1 ; enresult (";
   "( ) ) . inspect ( | _ | { { : : std : : io : : _print ( format_args ! ( ""tag:\s{0}\n"" , ""loop"" ) ) ; } ; } ) ? ; } ? ; let _ = < [ _ ] > : : into_vec";
   "( : : alloc : : boxed : : box_new ( [ enresult ( 0 ) ? , enresult ( 1 ) ? , { enresult ( 2 ) . inspect ( | _ | { { : : std : : io : : _print (";
   "format_args ! ( ""tag:\s{0}\n"" , ""sub\sscope\sin\smacro-outer"" ) ) ; } ; } ) ? } ] ) ) ; let _ = < [ _ ] > : : into_vec ( : : alloc : : boxed : :";
   "box_new ( [ < [ _ ] > : : into_vec ( : : alloc : : boxed : : box_new ( [ enresult ( 0 ) ? , enresult ( 1 ) ? , { enresult ( 2 ) . inspect ( | _ | { {";
   ": : std : : io : : _print ( format_args ! ( ""tag:\s{0}\n"" , ""sub\sscope\sin\smacro-inner"" ) ) ; } ; } ) ? } ] ) ) ] ) ) ; # [ allow ( clippy : :";
   "unit_arg ) ] let _ = match enresult ( Some ( { enresult ( ( ) ) . inspect ( | _ | { { : : std : : io : : _print ( format_args ! ( ""tag:\s{0}\n"" ,";
   """sub\sscope\sin\smatch\sexpr"" ) ) ; } ; } ) ? } ) ) ? { Some ( ( ) ) if enresult ( true ) . inspect ( | _ | { { : : std : : io : : _print (";
   "format_args ! ( ""tag:\s{0}\n"" , ""match"" ) ) ; } ; } ) ? = > { enresult ( ( ) ) . inspect ( | _ | { { : : std : : io : : _print ( format_args ! (";
   """tag:\s{0}\n"" , ""match"" ) ) ; } ; } ) ? ; enresult ( ( ) ) } Some ( ( ) ) = > { enresult ( ( ) ) . inspect ( | _ | { { : : std : : io : : _print (";
   "format_args ! ( ""tag:\s{0}\n"" , ""match"" ) ) ; } ; } ) ? ; enresult ( ( ) ) } None if enresult ( true ) . inspect ( | _ | { { : : std : : io : : _print";
   "( format_args ! ( ""tag:\s{0}\n"" , ""match"" ) ) ; } ; } ) ? = > Err ( ( ) ) . inspect ( | _ | { { : : std : : io : : _print ( format_args ! (";
   """tag:\s{0}\n"" , ""match"" ) ) ; } ; } ) None = > enresult ( ( ) ) } ? ; impl Strct { fn method ( & self , _ : ( ) ) - > Result < & Self , ( ) > { Ok (";
   "self ) . inspect ( | _ | { { : : std : : io : : _print ( format_args ! ( ""tag:\s{0}\n"" , ""(no\stag)"" ) ) ; } ; } ) } } let s = Strct { field : ( ) ,";
   "field2 : ( ) } ; s . method ( enresult ( ( ) ) ? ) ? . method ( { enresult ( ( ) ) . inspect ( | _ | { { : : std : : io : : _print ( format_args ! (";
   """tag:\s{0}\n"" , ""sub\sscope\sin\smethod\scall"" ) ) ; } ; } ) ? ; enresult ( ( ) ) . inspect ( | _ | { { : : std : : io : : _print ( format_args ! (";
   """tag:\s{0}\n"" , ""method_call"" ) ) ; } ; } ) ? } ) ? ; let _ = ( enresult ( { enresult ( enresult ( ( ) ) ) . inspect ( | _ | { { : : std : : io : :";
   "_print ( format_args ! ( ""tag:\s{0}\n"" , ""paren"" ) ) ; } ; } ) ? } ) ? ) ? ; let _ = enresult ( ( enresult ( 0 ) ? , { enresult ( ( ) ) . inspect ( |";
   "_ | { { : : std : : io : : _print ( format_args ! ( ""tag:\s{0}\n"" , ""range-1"" ) ) ; } ; } ) ? ; } ) . 0 ) ? . . enresult ( ( enresult ( 1 ) . inspect";
   "( | _ | { { : : std : : io : : _print ( format_args ! ( ""tag:\s{0}\n"" , ""(no\stag)"" ) ) ; } ; } ) ? , { enresult ( ( ) ) . inspect ( | _ | { { : : std";
   ": : io : : _print ( format_args ! ( ""tag:\s{0}\n"" , ""(no\stag)"" ) ) ; } ; } ) ? ; } ) . 0 ) . inspect ( | _ | { { : : std : : io : : _print (";
   "format_args ! ( ""tag:\s{0}\n"" , ""(no\stag)"" ) ) ; } ; } ) ? ; let _ = enresult ( ( enresult ( 0 ) . inspect ( | _ | { { : : std : : io : : _print (";
   "format_args ! ( ""tag:\s{0}\n"" , ""range-2"" ) ) ; } ; } ) ? , { enresult ( ( ) ) . inspect ( | _ | { { : : std : : io : : _print ( format_args ! (";
   """tag:\s{0}\n"" , ""range-2"" ) ) ; } ; } ) ? ; } ) . 0 ) . inspect ( | _ | { { : : std : : io : : _print ( format_args ! ( ""tag:\s{0}\n"" , ""range-2"" ) )";
   "; } ; } ) ? . . ( enresult ( ( enresult ( 1 ) ? , { enresult ( ( ) ) . inspect ( | _ | { { : : std : : io : : _print ( format_args ! ( ""tag:\s{0}\n"" ,";
   """(no\stag)"" ) ) ; } ; } ) ? ; } ) . 0 ) ? ) ; let _ = [ enresult ( ( enresult ( 0 ) ? , { enresult ( ( ) ) . inspect ( | _ | { { : : std : : io : :";
   "_print ( format_args ! ( ""tag:\s{0}\n"" , ""repeat"" ) ) ; } ; } ) ? } ) . 0 ) ? ; { fn _f ( ) - > Result < ( ) , ( ) > { enresult ( ( ) ) . inspect ( |";
   "_ | { { : : std : : io : : _print ( format_args ! ( ""tag:\s{0}\n"" , ""repeat"" ) ) ; } ; } ) ? ; Err ( ( ) ) . inspect ( | _ | { { : : std : : io : :";
   "_print ( format_args ! ( ""tag:\s{0}\n"" , ""repeat"" ) ) ; } ; } ) } 5 } ] ; let _ = ( enresult ( ( ) ) ? , { enresult ( ( ) ) . inspect ( | _ | { { : :";
   "std : : io : : _print ( format_args ! ( ""tag:\s{0}\n"" , ""sub\sscope\sin\stuple"" ) ) ; } ; } ) ? } ) ; let _ = ! enresult ( ( enresult ( true ) ? , {";
   "enresult ( ( ) ) . inspect ( | _ | { { : : std : : io : : _print ( format_args ! ( ""tag:\s{0}\n"" , ""unary"" ) ) ; } ; } ) ? } ) . 0 ) ? ; let _ =";
   "unsafe { unsafe fn unsafe_enresult < T > ( value : T ) - > Result < T , ( ) > { Ok ( value ) . inspect ( | _ | { { : : std : : io : : _print (";
   "format_args ! ( ""tag:\s{0}\n"" , ""unsafe"" ) ) ; } ; } ) } unsafe_enresult ( ( ) ) . inspect ( | _ | { { : : std : : io : : _print ( format_args ! (";
   """tag:\s{0}\n"" , ""sub\sscope\sin\sunsafe"" ) ) ; } ; } ) ? ; unsafe_enresult ( ( ) ) } ? ; while ( enresult ( false ) ? , { enresult ( ( ) ) . inspect (";
   "| _ | { { : : std : : io : : _print ( format_args ! ( ""tag:\s{0}\n"" , ""while"" ) ) ; } ; } ) ? ; } ) . 0 { enresult ( ( ) ) . inspect ( | _ | { { : :";
   "std : : io : : _print ( format_args ! ( ""tag:\s{0}\n"" , ""sub\sscope\sin\swhile"" ) ) ; } ; } ) ? ; } Err ( ( ) ) . inspect ( | _ | { { : : std : : io :";
   ": _print ( format_args ! ( ""tag:\s{0}\n"" , ""(no\stag)"" ) ) ; } ; } ) }"].
Definition it_special_skip_detail_4 : item := let S := at_ "hooq-macros/tests/special/skip_detail.rs" in
  (IFn [mk_attr false (S 570 1) (MList (mk_path false [mk_seg "hooq" [] (S 570 3); mk_seg "method" [] (S 570 9)]) Parenth [O S "." 570 16; I S "inspect" 570 17; G S Parenth [O S "|" 570 25; I S "_" 570 26; O S "|" 570 27; G S Brace [I S "println" 571 5; O S "!" 571 12; G S Parenth [L S (LStr "tag: {}") 571 14; O S "," 571 23; O S "$" 571 25; I S "tag" 571 26] 571 13; O S ";" 571 30] 570 29] 570 24] (S 570 15)); mk_attr false (S 573 1) (MNameValue (mk_path false [mk_seg "hooq" [] (S 573 3); mk_seg "tag" [] (S 573 9)]) (VStr "(no tag)" (S 573 15))); mk_attr false (S 574 1) (MList (mk_path false [mk_seg "hooq" [] (S 574 3); mk_seg "tail_expr_idents" [] (S 574 9)]) Parenth [L S (LStr "Ok") 574 26; O S "," 574 30; L S (LStr "Err") 574 32] (S 574 25))] [] (mk_sig "skip_expr_async_await" (RetPath (mk_path false [mk_seg "Result" [O S "<" 575 43; G S Parenth [] 575 44; O S "," 575 46; G S Parenth [] 575 48; O S ">" 575 50] (S 575 37)])) [I S "async" 575 1; I S "fn" 575 7; I S "skip_expr_async_await" 575 10; G S Parenth [] 575 31; O S "-" 575 34; O S ">" 575 35; I S "Result" 575 37; O S "<" 575 43; G S Parenth [] 575 44; O S "," 575 46; G S Parenth [] 575 48; O S ">" 575 50]) (S 575 52) [(SLocalInit [mk_attr false (S 576 5) (MNameValue (mk_path false [mk_seg "hooq" [] (S 576 7); mk_seg "tag" [] (S 576 13)]) (VStr "async & await" (S 576 19))); mk_attr false (S 577 5) (MPath (mk_path false [mk_seg "hooq" [] (S 577 7); mk_seg "skip" [] (S 577 13)]))] [I S "let" 578 5; I S "_" 578 9; O S "=" 578 11] (ETry [] (EAwait [] (EAsync [] [I S "async" 578 13] (S 578 19) [(SExpr (ETry [mk_attr false (S 579 9) (MNameValue (mk_path false [mk_seg "hooq" [] (S 579 11); mk_seg "tag" [] (S 579 17)]) (VStr "sub scope in async" (S 579 23)))] (EAwait [] (ETry [] (ECall [] (EPath [] (mk_path false [mk_seg "enresult" [] (S 580 9)])) (S 580 17) [(EAsync [] [I S "async" 580 18] (S 580 24) [(SExpr (EAwait [] (ETry [] (ECall [] (EPath [] (mk_path false [mk_seg "enresult" [] (S 581 13)])) (S 581 21) [(EAsync [] [I S "async" 581 22] (S 581 28) [])] []) (S 581 31)) [O S "." 581 32; I S "await" 581 33]) (Some (S 581 38))); (SExpr (ECall [] (EPath [] (mk_path false [mk_seg "enresult" [] (S 582 13)])) (S 582 21) [(ETuple [] (S 582 22) [] [])] []) None)])] []) (S 583 11)) [O S "." 584 9; I S "await" 584 10]) (S 584 15)) (Some (S 584 16))); (SExpr (ETry [mk_attr false (S 586 9) (MPath (mk_path false [mk_seg "hooq" [] (S 586 11); mk_seg "skip" [] (S 586 17)]))] (EAwait [] (ETry [] (ECall [] (EPath [] (mk_path false [mk_seg "enresult" [] (S 587 9)])) (S 587 17) [(EAsync [] [I S "async" 587 18] (S 587 24) [(SExpr (ETry [] (ECall [] (EPath [] (mk_path false [mk_seg "enresult" [] (S 588 13)])) (S 588 21) [(ETuple [] (S 588 22) [] [])] []) (S 588 25)) (Some (S 588 26))); (SExpr (ECall [] (EPath [] (mk_path false [mk_seg "enresult" [] (S 589 13)])) (S 589 21) [(ETuple [] (S 589 22) [] [])] []) None)])] []) (S 590 11)) [O S "." 591 9; I S "await" 591 10]) (S 591 15)) (Some (S 591 16))); (SExpr (ECall [] (EPath [] (mk_path false [mk_seg "Err" [] (S 593 9)])) (S 593 12) [(ETuple [] (S 593 13) [] [])] []) None)]) [O S "." 595 5; I S "await" 595 6]) (S 595 11)) [] None [O S ";" 595 12]); (SExpr (ECall [] (EPath [] (mk_path false [mk_seg "Err" [] (S 597 5)])) (S 597 8) [(ETuple [] (S 597 9) [] [])] []) None)]).
Definition args_special_skip_detail_4 : list meta := let S := at_ "hooq-macros/tests/special/skip_detail.rs" in [].
Definition rec_special_skip_detail_4 : list string :=
  ["async fn skip_expr_async_await ( ) - > Result < ( ) , ( ) > { let _ = async { enresult ( async { enresult ( async { } ) . inspect ( | _ | { { : : std";
   ": : io : : _print ( format_args ! ( ""tag:\s{0}\n"" , ""sub\sscope\sin\sasync"" ) ) ; } ; } ) ? . await ; enresult ( ( ) ) } ) . inspect ( | _ | { { : :";
   "std : : io : : _print ( format_args ! ( ""tag:\s{0}\n"" , ""sub\sscope\sin\sasync"" ) ) ; } ; } ) ? . await . inspect ( | _ | { { : : std : : io : :";
   "_print ( format_args ! ( ""tag:\s{0}\n"" , ""sub\sscope\sin\sasync"" ) ) ; } ; } ) ? ; enresult ( async { enresult ( ( ) ) . inspect ( | _ | { { : : std :";
   ": io : : _print ( format_args ! ( ""tag:\s{0}\n"" , ""async\s&\sawait"" ) ) ; } ; } ) ? ; enresult ( ( ) ) } ) ? . await ? ; Err ( ( ) ) . inspect ( | _ |";
   "{ { : : std : : io : : _print ( format_args ! ( ""tag:\s{0}\n"" , ""async\s&\sawait"" ) ) ; } ; } ) } . await ? ; Err ( ( ) ) . inspect ( | _ | { { : :";
   "std : : io : : _print ( format_args ! ( ""tag:\s{0}\n"" , ""(no\stag)"" ) ) ; } ; } ) }"].
Definition it_special_skip_detail_5 : item := let S := at_ "hooq-macros/tests/special/skip_detail.rs" in
  (IFn [mk_attr false (S 601 1) (MList (mk_path false [mk_seg "hooq" [] (S 601 3); mk_seg "method" [] (S 601 9)]) Parenth [O S "." 601 16; I S "inspect" 601 17; G S Parenth [O S "|" 601 25; I S "_" 601 26; O S "|" 601 27; G S Brace [I S "println" 602 5; O S "!" 602 12; G S Parenth [L S (LStr "tag: {}") 602 14; O S "," 602 23; O S "$" 602 25; I S "tag" 602 26] 602 13; O S ";" 602 30] 601 29] 601 24] (S 601 15)); mk_attr false (S 604 1) (MList (mk_path false [mk_seg "hooq" [] (S 604 3); mk_seg "tail_expr_idents" [] (S 604 9)]) Parenth [L S (LStr "Ok") 604 26; O S "," 604 30; L S (LStr "Err") 604 32] (S 604 25))] [] (mk_sig "skip_last_ok" (RetPath (mk_path false [mk_seg "Result" [O S "<" 605 28; G S Parenth [] 605 29; O S "," 605 31; G S Parenth [] 605 33; O S ">" 605 35] (S 605 22)])) [I S "fn" 605 1; I S "skip_last_ok" 605 4; G S Parenth [] 605 16; O S "-" 605 19; O S ">" 605 20; I S "Result" 605 22; O S "<" 605 28; G S Parenth [] 605 29; O S "," 605 31; G S Parenth [] 605 33; O S ">" 605 35]) (S 605 37) [(SLocalInit [] [I S "let" 606 5; I S "_" 606 9; O S ":" 606 10; I S "Result" 606 12; O S "<" 606 18; G S Parenth [] 606 19; O S "," 606 21; G S Parenth [] 606 23; O S ">" 606 25; O S "=" 606 27] (EBlock [mk_attr false (S 606 29) (MNameValue (mk_path false [mk_seg "hooq" [] (S 606 31); mk_seg "tag" [] (S 606 37)]) (VStr "last ok 1" (S 606 43))); mk_attr false (S 607 5) (MPath (mk_path false [mk_seg "hooq" [] (S 607 7); mk_seg "skip" [] (S 607 13)]))] [] (S 608 5) [(SExpr (ECall [] (EPath [] (mk_path false [mk_seg "Err" [] (S 609 9)])) (S 609 12) [(ETuple [] (S 609 13) [] [])] []) None)]) [] None [O S ";" 610 6]); (SLocalInit [] [I S "let" 612 5; I S "_" 612 9; O S ":" 612 10; I S "Result" 612 12; O S "<" 612 18; G S Parenth [] 612 19; O S "," 612 21; G S Parenth [] 612 23; O S ">" 612 25; O S "=" 612 27] (EBlock [mk_attr false (S 612 29) (MNameValue (mk_path false [mk_seg "hooq" [] (S 612 31); mk_seg "tag" [] (S 612 37)]) (VStr "last ok 2" (S 612 43)))] [] (S 613 5) [(SExpr (ECall [mk_attr false (S 614 9) (MPath (mk_path false [mk_seg "hooq" [] (S 614 11); mk_seg "skip" [] (S 614 17)]))] (EPath [] (mk_path false [mk_seg "Err" [] (S 615 9)])) (S 615 12) [(ETuple [] (S 615 13) [] [])] []) None)]) [] None [O S ";" 616 6]); (SExpr (ECall [mk_attr false (S 618 5) (MNameValue (mk_path false [mk_seg "hooq" [] (S 618 7); mk_seg "tag" [] (S 618 13)]) (VStr "last ok 3" (S 618 19))); mk_attr false (S 619 5) (MPath (mk_path false [mk_seg "hooq" [] (S 619 7); mk_seg "skip" [] (S 619 13)]))] (EPath [] (mk_path false [mk_seg "Err" [] (S 620 5)])) (S 620 8) [(ETuple [] (S 620 9) [] [])] []) None)]).
Definition args_special_skip_detail_5 : list meta := let S := at_ "hooq-macros/tests/special/skip_detail.rs" in [].
Definition rec_special_skip_detail_5 : list string :=
  ["fn skip_last_ok ( ) - > Result < ( ) , ( ) > { let _ : Result < ( ) , ( ) > = { Err ( ( ) ) . inspect ( | _ | { { : : std : : io : : _print (";
   "format_args ! ( ""tag:\s{0}\n"" , ""last\sok\s1"" ) ) ; } ; } ) } ; let _ : Result < ( ) , ( ) > = { Err ( ( ) ) } ; Err ( ( ) ) }"].
(** enresult *)
Example recorded_special_skip_detail_0 : expanded su_special_skip_detail args_special_skip_detail_0 it_special_skip_detail_0 = words rec_special_skip_detail_0.
Proof. vm_compute. reflexivity. Qed.
(** skip_stmts *)
Example recorded_special_skip_detail_1 : expanded su_special_skip_detail args_special_skip_detail_1 it_special_skip_detail_1 = words rec_special_skip_detail_1.
Proof. vm_compute. reflexivity. Qed.
(** skip_item *)
Example recorded_special_skip_detail_2 : expanded su_special_skip_detail args_special_skip_detail_2 it_special_skip_detail_2 = words rec_special_skip_detail_2.
Proof. vm_compute. reflexivity. Qed.
(** skip_expr *)
Example recorded_special_skip_detail_3 : expanded su_special_skip_detail args_special_skip_detail_3 it_special_skip_detail_3 = words rec_special_skip_detail_3.
Proof. vm_compute. reflexivity. Qed.
(** skip_expr_async_await *)
Example recorded_special_skip_detail_4 : expanded su_special_skip_detail args_special_skip_detail_4 it_special_skip_detail_4 = words rec_special_skip_detail_4.
Proof. vm_compute. reflexivity. Qed.
(** skip_last_ok *)
Example recorded_special_skip_detail_5 : expanded su_special_skip_detail args_special_skip_detail_5 it_special_skip_detail_5 = words rec_special_skip_detail_5.
Proof. vm_compute. reflexivity. Qed.
