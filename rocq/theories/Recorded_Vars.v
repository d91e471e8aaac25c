(** Recorded expansions of the real macro: special: meta variables.  Generated by conformance/gen.py.  *)
From Coq Require Import String Ascii Bool Arith NArith List.
From Verif Require Import Base Tokens Method Paths Context Flavor Attrs Syntax Conformance.
Import ListNotations.
Open Scope string_scope.
Open Scope list_scope.
Open Scope N_scope.

(** ** hooq-macros/tests/special/meta_var/bindings.rs *)
Definition doc_special_meta_var_bindings : list (string * ftable) := [].
Definition texts_special_meta_var_bindings : list (string * list tt) := let S := at_ "" in [].
Definition strs_special_meta_var_bindings : list (string * string) :=
  [("dif : { 0 } with tag : { 1 }", "dif: {0} with tag: {1}
");
   ("dif : { 0 } with tag : { 1 } with hoge : { 2 }", "dif: {0} with tag: {1} with hoge: {2}
")].
Definition ends_special_meta_var_bindings : list (N * N * (N * N * string)) :=
  [(3, 2, (3, 8, "")); (4, 2, (9, 5, "")); (4, 15, (9, 4, "")); (4, 28, (9, 3, "")); (4, 33, (9, 2, "")); (5, 6, (5, 38, "")); (5, 12, (5, 37, "")); (6, 34, (8, 6, "")); (7, 18, (7, 75, "")); (7, 19, (7, 41, """dif: {} with tag: {}""")); (7, 43, (7, 53, "")); (7, 53, (7, 68, "")); (10, 2, (10, 38, "")); (10, 12, (10, 37, "")); (10, 19, (10, 36, """threshold_check""")); (11, 2, (11, 31, "")); (11, 16, (11, 30, "")); (12, 2, (12, 23, "")); (13, 2, (13, 32, "")); (14, 8, (14, 20, "")); (14, 31, (14, 33, "")); (14, 42, (39, 2, "")); (15, 6, (15, 27, "")); (16, 16, (36, 6, "")); (17, 20, (17, 30, """hogehoge""")); (19, 10, (29, 13, "")); (19, 23, (29, 12, "")); (19, 36, (29, 11, "")); (19, 41, (29, 10, "")); (20, 14, (20, 46, "")); (20, 20, (20, 45, "")); (21, 42, (28, 14, "")); (22, 26, (27, 18, "")); (23, 21, (23, 57, """dif: {} with tag: {} with hoge: {}""")); (24, 21, (24, 31, "")); (24, 31, (24, 46, "")); (30, 10, (30, 29, "")); (31, 21, (33, 10, "")); (32, 23, (32, 28, "")); (35, 19, (35, 24, "")); (38, 8, (38, 13, "")); (41, 2, (41, 8, "")); (42, 8, (42, 10, "")); (42, 11, (44, 2, "")); (43, 17, (43, 21, "")); (43, 32, (43, 34, ""))].
Definition su_special_meta_var_bindings : setup := mk_setup (mk_features false false true false false "hooq") doc_special_meta_var_bindings texts_special_meta_var_bindings strs_special_meta_var_bindings [] ends_special_meta_var_bindings "bindings".
Definition it_special_meta_var_bindings_0 : item := let S := at_ "hooq-macros/tests/special/meta_var/bindings.rs" in
  (IFn [mk_attr false (S 4 1) (MList (mk_path false [mk_seg "hooq" [] (S 4 3); mk_seg "method" [] (S 4 9)]) Parenth [O S "." 4 16; I S "inspect_err" 4 17; G S Parenth [O S "|" 4 29; I S "e" 4 30; O S "|" 4 31; G S Brace [O S "#" 5 5; G S Bracket [I S "allow" 5 7; G S Parenth [I S "clippy" 5 13; O S ":" 5 19; O S ":" 5 20; I S "nonminimal_bool" 5 21] 5 12] 5 6; I S "if" 6 5; O S "*" 6 8; I S "e" 6 9; O S ">" 6 11; O S "$" 6 13; I S "threshold" 6 14; O S "&" 6 24; O S "&" 6 25; O S "!" 6 27; O S "$" 6 28; I S "skip" 6 29; G S Brace [I S "eprintln" 7 9; O S "!" 7 17; G S Parenth [L S (LStr "dif: {} with tag: {}") 7 19; O S "," 7 41; G S Parenth [O S "$" 7 44; I S "closure" 7 45] 7 43; G S Parenth [I S "e" 7 54; O S "," 7 55; O S "$" 7 57; I S "threshold" 7 58] 7 53; O S "," 7 68; O S "$" 7 70; I S "tag" 7 71] 7 18; O S ";" 7 75] 6 34] 4 33] 4 28] (S 4 15)); mk_attr false (S 10 1) (MList (mk_path false [mk_seg "hooq" [] (S 10 3); mk_seg "var" [] (S 10 9)]) Parenth [I S "tag" 10 13; O S "=" 10 17; L S (LStr "threshold_check") 10 19] (S 10 12)); mk_attr false (S 11 1) (MList (mk_path false [mk_seg "hooq" [] (S 11 3); mk_seg "binding" [] (S 11 9)]) Parenth [I S "skip" 11 17; O S "=" 11 22; I S "false" 11 24] (S 11 16)); mk_attr false (S 12 1) (MNameValue (mk_path false [mk_seg "hooq" [] (S 12 3); mk_seg "threshold" [] (S 12 9)]) (VOther [L S (LOther "5") 12 21])); mk_attr false (S 13 1) (MNameValue (mk_path false [mk_seg "hooq" [] (S 13 3); mk_seg "closure" [] (S 13 9)]) (VOther [O S "|" 13 19; I S "e" 13 20; O S "," 13 21; I S "t" 13 23; O S "|" 13 24; I S "e" 13 26; O S "-" 13 28; I S "t" 13 30]))] [] (mk_sig "func" (RetPath (mk_path false [mk_seg "Result" [O S "<" 14 30; G S Parenth [] 14 31; O S "," 14 33; I S "usize" 14 35; O S ">" 14 40] (S 14 24)])) [I S "fn" 14 1; I S "func" 14 4; G S Parenth [I S "val" 14 9; O S ":" 14 12; I S "usize" 14 14] 14 8; O S "-" 14 21; O S ">" 14 22; I S "Result" 14 24; O S "<" 14 30; G S Parenth [] 14 31; O S "," 14 33; I S "usize" 14 35; O S ">" 14 40]) (S 14 42) [(SExpr (EIf [mk_attr false (S 15 5) (MNameValue (mk_path false [mk_seg "hooq" [] (S 15 7); mk_seg "threshold" [] (S 15 13)]) (VOther [L S (LOther "9") 15 25]))] [I S "if" 16 5] (EBinary [] (EPath [] (mk_path false [mk_seg "val" [] (S 16 8)])) [O S ">" 16 12] (ELit [] (LOther "9") (S 16 14))) (S 16 16) [(SLocalInit [] [I S "let" 17 9; I S "hoge" 17 13; O S "=" 17 18] (ELit [] (LStr "hogehoge") (S 17 20)) [] None [O S ";" 17 30]); (SExpr (EIf [mk_attr false (S 19 9) (MList (mk_path false [mk_seg "hooq" [] (S 19 11); mk_seg "method" [] (S 19 17)]) Parenth [O S "." 19 24; I S "inspect_err" 19 25; G S Parenth [O S "|" 19 37; I S "e" 19 38; O S "|" 19 39; G S Brace [O S "#" 20 13; G S Bracket [I S "allow" 20 15; G S Parenth [I S "clippy" 20 21; O S ":" 20 27; O S ":" 20 28; I S "nonminimal_bool" 20 29] 20 20] 20 14; I S "if" 21 13; O S "*" 21 16; I S "e" 21 17; O S ">" 21 19; O S "$" 21 21; I S "threshold" 21 22; O S "&" 21 32; O S "&" 21 33; O S "!" 21 35; O S "$" 21 36; I S "skip" 21 37; G S Brace [I S "eprintln" 22 17; O S "!" 22 25; G S Parenth [L S (LStr "dif: {} with tag: {} with hoge: {}") 23 21; O S "," 23 57; G S Parenth [O S "$" 24 22; I S "closure" 24 23] 24 21; G S Parenth [I S "e" 24 32; O S "," 24 33; O S "$" 24 35; I S "threshold" 24 36] 24 31; O S "," 24 46; O S "$" 25 21; I S "tag" 25 22; O S "," 25 25; O S "$" 26 21; I S "hoge" 26 22] 22 26; O S ";" 27 18] 21 42] 19 41] 19 36] (S 19 23)); mk_attr false (S 30 9) (MNameValue (mk_path false [mk_seg "hooq" [] (S 30 11); mk_seg "hoge" [] (S 30 17)]) (VPath (mk_path false [mk_seg "hoge" [] (S 30 24)])))] [I S "if" 31 9] (EBinary [] (EPath [] (mk_path false [mk_seg "val" [] (S 31 12)])) [O S ">" 31 16] (ELit [] (LOther "20") (S 31 18))) (S 31 21) [(SExpr (EReturn [] (S 32 13) (Some (ECall [] (EPath [] (mk_path false [mk_seg "Err" [] (S 32 20)])) (S 32 23) [(EPath [] (mk_path false [mk_seg "val" [] (S 32 24)]))] []))) (Some (S 32 28)))] [] None) None); (SExpr (EReturn [] (S 35 9) (Some (ECall [] (EPath [] (mk_path false [mk_seg "Err" [] (S 35 16)])) (S 35 19) [(EPath [] (mk_path false [mk_seg "val" [] (S 35 20)]))] []))) (Some (S 35 24)))] [] None) None); (SExpr (ECall [] (EPath [] (mk_path false [mk_seg "Err" [] (S 38 5)])) (S 38 8) [(EPath [] (mk_path false [mk_seg "val" [] (S 38 9)]))] []) None)]).
Definition args_special_meta_var_bindings_0 : list meta := let S := at_ "hooq-macros/tests/special/meta_var/bindings.rs" in [].
Definition rec_special_meta_var_bindings_0 : list string :=
  ["fn func ( val : usize ) - > Result < ( ) , usize > { if val > 9 { let hoge = ""hogehoge"" ; if val > 20 { return Err ( val ) . inspect_err ( | e | # [";
   "allow ( clippy : : nonminimal_bool ) ] if * e > 9 & & ! false { { : : std : : io : : _eprint ( format_args ! (";
   """dif:\s{0}\swith\stag:\s{1}\swith\shoge:\s{2}\n"" , ( | e , t | e - t ) ( e , 9 ) , ""threshold_check"" , hoge ) ) ; } ; } ) ; } return Err ( val ) .";
   "inspect_err ( | e | # [ allow ( clippy : : nonminimal_bool ) ] if * e > 9 & & ! false { { : : std : : io : : _eprint ( format_args ! (";
   """dif:\s{0}\swith\stag:\s{1}\n"" , ( | e , t | e - t ) ( e , 9 ) , ""threshold_check"" ) ) ; } ; } ) ; } Err ( val ) . inspect_err ( | e | # [ allow (";
   "clippy : : nonminimal_bool ) ] if * e > 5 & & ! false { { : : std : : io : : _eprint ( format_args ! ( ""dif:\s{0}\swith\stag:\s{1}\n"" , ( | e , t | e";
   "- t ) ( e , 5 ) , ""threshold_check"" ) ) ; } ; } ) }"].
(** func *)
Example recorded_special_meta_var_bindings_0 : expanded su_special_meta_var_bindings args_special_meta_var_bindings_0 it_special_meta_var_bindings_0 = words rec_special_meta_var_bindings_0.
Proof. vm_compute. reflexivity. Qed.
(** ** hooq-macros/tests/special/meta_var/fn_info.rs *)
Definition doc_special_meta_var_fn_info : list (string * ftable) := [].
Definition texts_special_meta_var_fn_info : list (string * list tt) := let S := at_ "" in [].
Definition strs_special_meta_var_fn_info : list (string * string) :=
  [("__closure_in_ < unknown > __", "__closure_in_<unknown>__");
   ("fn _inner ( ) - > Result < ( ) , Unit >", "fn _inner() -> Result < (), Unit >");
   ("fn func ( ) - > Result < ( ) , ( ) >", "fn func() -> Result < (), () >");
   ("fn_name : { 0 } fn_sig : { 1 }", "
fn_name: {0}
fn_sig:  {1}
");
   ("| ( ( ) , ( ) , ( ) ) : ( Unit , Unit , Unit ) | - > Result < Unit , Unit > { }", "| ((), (), ()) : (Unit, Unit, Unit) | -> Result < Unit, Unit > {}");
   ("| ( ) : Unit , ( ) : Unit | - > Result < Unit , Unit > { }", "| () : Unit, () : Unit | -> Result < Unit, Unit > {}");
   ("| ( ) : Unit | - > Result < Unit , Unit > { }", "| () : Unit | -> Result < Unit, Unit > {}");
   ("| |", "| | {}");
   ("| | - > Result < ( ) , ( ) > { }", "| | -> Result < (), () > {}");
   ("| | - > Result < Unit , Unit > { }", "| | -> Result < Unit, Unit > {}")].
Definition ends_special_meta_var_fn_info : list (N * N * (N * N * string)) :=
  [(3, 15, (3, 21, "")); (3, 35, (3, 37, "")); (3, 39, (5, 2, "")); (4, 7, (4, 10, "")); (7, 2, (7, 20, "")); (7, 8, (7, 19, "")); (8, 13, (8, 15, "")); (10, 2, (10, 8, "")); (11, 2, (15, 5, "")); (11, 15, (15, 4, "")); (11, 28, (15, 3, "")); (11, 33, (15, 2, "")); (12, 14, (14, 33, "")); (12, 15, (14, 13, """
fn_name: {}
fn_sig:  {}""")); (16, 9, (43, 2, "")); (19, 16, (19, 32, "")); (21, 34, (21, 36, "")); (21, 38, (21, 40, "")); (21, 58, (42, 7, "")); (21, 62, (42, 6, "")); (22, 17, (22, 21, "")); (22, 18, (22, 20, "")); (24, 30, (24, 32, "")); (24, 34, (24, 36, "")); (24, 38, (37, 10, "")); (25, 21, (25, 25, "")); (25, 22, (25, 24, "")); (27, 22, (27, 24, "")); (27, 25, (32, 14, "")); (28, 50, (31, 18, "")); (29, 29, (29, 33, "")); (29, 30, (29, 32, "")); (30, 23, (30, 27, "")); (30, 24, (30, 26, "")); (34, 21, (34, 25, "")); (34, 22, (34, 24, "")); (36, 15, (36, 19, "")); (36, 16, (36, 18, "")); (39, 17, (39, 21, "")); (39, 18, (39, 20, "")); (41, 11, (41, 15, "")); (41, 12, (41, 14, "")); (45, 2, (45, 8, "")); (46, 2, (50, 5, "")); (46, 15, (50, 4, "")); (46, 28, (50, 3, "")); (46, 33, (50, 2, "")); (47, 14, (49, 33, "")); (47, 15, (49, 13, """
fn_name: {}
fn_sig:  {}""")); (51, 8, (51, 10, "")); (51, 21, (51, 23, "")); (51, 25, (51, 27, "")); (51, 29, (94, 2, "")); (52, 13, (52, 17, "")); (52, 14, (52, 16, "")); (54, 26, (54, 28, "")); (54, 30, (54, 32, "")); (54, 34, (90, 6, "")); (55, 17, (55, 21, "")); (55, 18, (55, 20, "")); (57, 18, (57, 20, "")); (57, 31, (57, 33, "")); (57, 41, (86, 10, "")); (58, 21, (58, 25, "")); (58, 22, (58, 24, "")); (60, 46, (82, 14, "")); (61, 25, (61, 29, "")); (61, 26, (61, 28, "")); (63, 26, (63, 28, "")); (63, 58, (79, 18, "")); (64, 29, (64, 33, "")); (64, 30, (64, 32, "")); (66, 30, (66, 32, "")); (66, 40, (66, 42, "")); (66, 72, (76, 22, "")); (67, 33, (67, 37, "")); (67, 34, (67, 36, "")); (69, 34, (69, 46, "")); (69, 35, (69, 37, "")); (69, 39, (69, 41, "")); (69, 43, (69, 45, "")); (69, 48, (69, 66, "")); (69, 90, (73, 26, "")); (70, 37, (70, 41, "")); (70, 38, (70, 40, "")); (72, 31, (72, 35, "")); (72, 32, (72, 34, "")); (75, 27, (75, 31, "")); (75, 28, (75, 30, "")); (78, 23, (78, 27, "")); (78, 24, (78, 26, "")); (81, 19, (81, 23, "")); (81, 20, (81, 22, "")); (83, 21, (83, 25, "")); (83, 22, (83, 24, "")); (85, 15, (85, 19, "")); (85, 16, (85, 18, "")); (87, 17, (87, 21, "")); (87, 18, (87, 20, "")); (89, 11, (89, 15, "")); (89, 12, (89, 14, "")); (91, 13, (91, 17, "")); (91, 14, (91, 16, "")); (93, 7, (93, 11, "")); (93, 8, (93, 10, "")); (96, 2, (96, 8, "")); (97, 16, (97, 18, "")); (97, 19, (99, 2, "")); (98, 9, (98, 11, "")); (98, 18, (98, 20, ""))].
Definition su_special_meta_var_fn_info : setup := mk_setup (mk_features false false true false false "hooq") doc_special_meta_var_fn_info texts_special_meta_var_fn_info strs_special_meta_var_fn_info [] ends_special_meta_var_fn_info "fn_info".
Definition it_special_meta_var_fn_info_0 : item := let S := at_ "hooq-macros/tests/special/meta_var/fn_info.rs" in
  (IMod [mk_attr false (S 11 1) (MList (mk_path false [mk_seg "hooq" [] (S 11 3); mk_seg "method" [] (S 11 9)]) Parenth [O S "." 11 16; I S "inspect_err" 11 17; G S Parenth [O S "|" 11 29; I S "_" 11 30; O S "|" 11 31; G S Brace [I S "eprintln" 12 5; O S "!" 12 13; G S Parenth [L S (LStr "
fn_name: {}
fn_sig:  {}") 12 15; O S "," 14 13; O S "$" 14 15; I S "fn_name" 14 16; O S "," 14 23; O S "$" 14 25; I S "fn_sig" 14 26] 12 14; O S ";" 14 33] 11 33] 11 28] (S 11 15))] [I S "mod" 16 1; I S "tmp" 16 5] (S 16 9) [(IOther [] [I S "use" 17 5; I S "std" 17 9; O S ":" 17 12; O S ":" 17 13; I S "sync" 17 14; O S ":" 17 18; O S ":" 17 19; I S "LazyLock" 17 20; O S ";" 17 28]); (IOther [] [I S "use" 19 5; I S "super" 19 9; O S ":" 19 14; O S ":" 19 15; G S Brace [I S "Unit" 19 17; O S "," 19 21; I S "enresult" 19 23] 19 16; O S ";" 19 32]); (IStatic [] [I S "static" 21 5; I S "_TMP" 21 12; O S ":" 21 16; I S "LazyLock" 21 18; O S "<" 21 26; I S "Result" 21 27; O S "<" 21 33; G S Parenth [] 21 34; O S "," 21 36; G S Parenth [] 21 38; O S ">" 21 40; O S ">" 21 41; O S "=" 21 43] (ECall [] (EPath [] (mk_path false [mk_seg "LazyLock" [] (S 21 45); mk_seg "new" [] (S 21 55)])) (S 21 58) [(EClosure [] [O S "|" 21 59; O S "|" 21 60] RetNone (EBlock [] [] (S 21 62) [(SExpr (ETry [] (ECall [] (EPath [] (mk_path false [mk_seg "enresult" [] (S 22 9)])) (S 22 17) [(ETuple [] (S 22 18) [] [])] []) (S 22 21)) (Some (S 22 22))); (SLocalInit [] [I S "let" 24 9; I S "_" 24 13; O S "=" 24 15] (EClosure [] [O S "|" 24 17; O S "|" 24 18; O S "-" 24 20; O S ">" 24 21; I S "Result" 24 23; O S "<" 24 29; G S Parenth [] 24 30; O S "," 24 32; G S Parenth [] 24 34; O S ">" 24 36] (RetPath (mk_path false [mk_seg "Result" [O S "<" 24 29; G S Parenth [] 24 30; O S "," 24 32; G S Parenth [] 24 34; O S ">" 24 36] (S 24 23)])) (EBlock [] [] (S 24 38) [(SExpr (ETry [] (ECall [] (EPath [] (mk_path false [mk_seg "enresult" [] (S 25 13)])) (S 25 21) [(ETuple [] (S 25 22) [] [])] []) (S 25 25)) (Some (S 25 26))); (SItem (IFn [] [] (mk_sig "_inner" RetNone [I S "fn" 27 13; I S "_inner" 27 16; G S Parenth [] 27 22]) (S 27 25) [(SLocalInit [] [I S "let" 28 17; I S "_" 28 21; O S "=" 28 23] (EClosure [] [O S "|" 28 25; O S "|" 28 26; O S "-" 28 28; O S ">" 28 29; I S "Result" 28 31; O S "<" 28 37; I S "Unit" 28 38; O S "," 28 42; I S "Unit" 28 44; O S ">" 28 48] (RetPath (mk_path false [mk_seg "Result" [O S "<" 28 37; I S "Unit" 28 38; O S "," 28 42; I S "Unit" 28 44; O S ">" 28 48] (S 28 31)])) (EBlock [] [] (S 28 50) [(SExpr (ETry [] (ECall [] (EPath [] (mk_path false [mk_seg "enresult" [] (S 29 21)])) (S 29 29) [(ETuple [] (S 29 30) [] [])] []) (S 29 33)) (Some (S 29 34))); (SExpr (ECall [] (EPath [] (mk_path false [mk_seg "Ok" [] (S 30 21)])) (S 30 23) [(ETuple [] (S 30 24) [] [])] []) None)])) [] None [O S ";" 31 18])])); (SExpr (ETry [] (ECall [] (EPath [] (mk_path false [mk_seg "enresult" [] (S 34 13)])) (S 34 21) [(ETuple [] (S 34 22) [] [])] []) (S 34 25)) (Some (S 34 26))); (SExpr (ECall [] (EPath [] (mk_path false [mk_seg "Ok" [] (S 36 13)])) (S 36 15) [(ETuple [] (S 36 16) [] [])] []) None)])) [] None [O S ";" 37 10]); (SExpr (ETry [] (ECall [] (EPath [] (mk_path false [mk_seg "enresult" [] (S 39 9)])) (S 39 17) [(ETuple [] (S 39 18) [] [])] []) (S 39 21)) (Some (S 39 22))); (SExpr (ECall [] (EPath [] (mk_path false [mk_seg "Ok" [] (S 41 9)])) (S 41 11) [(ETuple [] (S 41 12) [] [])] []) None)]))] []) [O S ";" 42 7])]).
Definition args_special_meta_var_fn_info_0 : list meta := let S := at_ "hooq-macros/tests/special/meta_var/fn_info.rs" in [].
Definition rec_special_meta_var_fn_info_0 : list string :=
  ["mod tmp { use std : : sync : : LazyLock ; use super : : { Unit , enresult } ; static _TMP : LazyLock < Result < ( ) , ( ) > > = LazyLock : : new ( | |";
   "{ enresult ( ( ) ) . inspect_err ( | _ | { { : : std : : io : : _eprint ( format_args ! ( ""\nfn_name:\s{0}\nfn_sig:\s\s{1}\n"" ,";
   """__closure_in_<unknown>__"" , ""|\s|\s{}"" ) ) ; } ; } ) ? ; let _ = | | - > Result < ( ) , ( ) > { enresult ( ( ) ) . inspect_err ( | _ | { { : : std :";
   ": io : : _eprint ( format_args ! ( ""\nfn_name:\s{0}\nfn_sig:\s\s{1}\n"" , ""__closure_in_<unknown>__"" , ""|\s|\s->\sResult\s<\s(),\s()\s>\s{}"" ) ) ; } ;";
   "} ) ? ; fn _inner ( ) { let _ = | | - > Result < Unit , Unit > { enresult ( ( ) ) . inspect_err ( | _ | { { : : std : : io : : _eprint ( format_args !";
   "( ""\nfn_name:\s{0}\nfn_sig:\s\s{1}\n"" , ""__closure_in__inner__"" , ""|\s|\s->\sResult\s<\sUnit,\sUnit\s>\s{}"" ) ) ; } ; } ) ? ; Ok ( ( ) ) } ; }";
   "enresult ( ( ) ) . inspect_err ( | _ | { { : : std : : io : : _eprint ( format_args ! ( ""\nfn_name:\s{0}\nfn_sig:\s\s{1}\n"" ,";
   """__closure_in_<unknown>__"" , ""|\s|\s->\sResult\s<\s(),\s()\s>\s{}"" ) ) ; } ; } ) ? ; Ok ( ( ) ) } ; enresult ( ( ) ) . inspect_err ( | _ | { { : : std";
   ": : io : : _eprint ( format_args ! ( ""\nfn_name:\s{0}\nfn_sig:\s\s{1}\n"" , ""__closure_in_<unknown>__"" , ""|\s|\s{}"" ) ) ; } ; } ) ? ; Ok ( ( ) ) } ) ;";
   "}"].
Definition it_special_meta_var_fn_info_1 : item := let S := at_ "hooq-macros/tests/special/meta_var/fn_info.rs" in
  (IFn [mk_attr false (S 46 1) (MList (mk_path false [mk_seg "hooq" [] (S 46 3); mk_seg "method" [] (S 46 9)]) Parenth [O S "." 46 16; I S "inspect_err" 46 17; G S Parenth [O S "|" 46 29; I S "_" 46 30; O S "|" 46 31; G S Brace [I S "eprintln" 47 5; O S "!" 47 13; G S Parenth [L S (LStr "
fn_name: {}
fn_sig:  {}") 47 15; O S "," 49 13; O S "$" 49 15; I S "fn_name" 49 16; O S "," 49 23; O S "$" 49 25; I S "fn_sig" 49 26] 47 14; O S ";" 49 33] 46 33] 46 28] (S 46 15))] [] (mk_sig "func" (RetPath (mk_path false [mk_seg "Result" [O S "<" 51 20; G S Parenth [] 51 21; O S "," 51 23; G S Parenth [] 51 25; O S ">" 51 27] (S 51 14)])) [I S "fn" 51 1; I S "func" 51 4; G S Parenth [] 51 8; O S "-" 51 11; O S ">" 51 12; I S "Result" 51 14; O S "<" 51 20; G S Parenth [] 51 21; O S "," 51 23; G S Parenth [] 51 25; O S ">" 51 27]) (S 51 29) [(SExpr (ETry [] (ECall [] (EPath [] (mk_path false [mk_seg "enresult" [] (S 52 5)])) (S 52 13) [(ETuple [] (S 52 14) [] [])] []) (S 52 17)) (Some (S 52 18))); (SLocalInit [] [I S "let" 54 5; I S "_" 54 9; O S "=" 54 11] (EClosure [] [O S "|" 54 13; O S "|" 54 14; O S "-" 54 16; O S ">" 54 17; I S "Result" 54 19; O S "<" 54 25; G S Parenth [] 54 26; O S "," 54 28; G S Parenth [] 54 30; O S ">" 54 32] (RetPath (mk_path false [mk_seg "Result" [O S "<" 54 25; G S Parenth [] 54 26; O S "," 54 28; G S Parenth [] 54 30; O S ">" 54 32] (S 54 19)])) (EBlock [] [] (S 54 34) [(SExpr (ETry [] (ECall [] (EPath [] (mk_path false [mk_seg "enresult" [] (S 55 9)])) (S 55 17) [(ETuple [] (S 55 18) [] [])] []) (S 55 21)) (Some (S 55 22))); (SItem (IFn [] [] (mk_sig "_inner" (RetPath (mk_path false [mk_seg "Result" [O S "<" 57 30; G S Parenth [] 57 31; O S "," 57 33; I S "Unit" 57 35; O S ">" 57 39] (S 57 24)])) [I S "fn" 57 9; I S "_inner" 57 12; G S Parenth [] 57 18; O S "-" 57 21; O S ">" 57 22; I S "Result" 57 24; O S "<" 57 30; G S Parenth [] 57 31; O S "," 57 33; I S "Unit" 57 35; O S ">" 57 39]) (S 57 41) [(SExpr (ETry [] (ECall [] (EPath [] (mk_path false [mk_seg "enresult" [] (S 58 13)])) (S 58 21) [(ETuple [] (S 58 22) [] [])] []) (S 58 25)) (Some (S 58 26))); (SLocalInit [] [I S "let" 60 13; I S "_" 60 17; O S "=" 60 19] (EClosure [] [O S "|" 60 21; O S "|" 60 22; O S "-" 60 24; O S ">" 60 25; I S "Result" 60 27; O S "<" 60 33; I S "Unit" 60 34; O S "," 60 38; I S "Unit" 60 40; O S ">" 60 44] (RetPath (mk_path false [mk_seg "Result" [O S "<" 60 33; I S "Unit" 60 34; O S "," 60 38; I S "Unit" 60 40; O S ">" 60 44] (S 60 27)])) (EBlock [] [] (S 60 46) [(SExpr (ETry [] (ECall [] (EPath [] (mk_path false [mk_seg "enresult" [] (S 61 17)])) (S 61 25) [(ETuple [] (S 61 26) [] [])] []) (S 61 29)) (Some (S 61 30))); (SLocalInit [] [I S "let" 63 17; I S "_" 63 21; O S "=" 63 23] (EClosure [] [O S "|" 63 25; G S Parenth [] 63 26; O S ":" 63 28; I S "Unit" 63 30; O S "|" 63 34; O S "-" 63 36; O S ">" 63 37; I S "Result" 63 39; O S "<" 63 45; I S "Unit" 63 46; O S "," 63 50; I S "Unit" 63 52; O S ">" 63 56] (RetPath (mk_path false [mk_seg "Result" [O S "<" 63 45; I S "Unit" 63 46; O S "," 63 50; I S "Unit" 63 52; O S ">" 63 56] (S 63 39)])) (EBlock [] [] (S 63 58) [(SExpr (ETry [] (ECall [] (EPath [] (mk_path false [mk_seg "enresult" [] (S 64 21)])) (S 64 29) [(ETuple [] (S 64 30) [] [])] []) (S 64 33)) (Some (S 64 34))); (SLocalInit [] [I S "let" 66 21; I S "_" 66 25; O S "=" 66 27] (EClosure [] [O S "|" 66 29; G S Parenth [] 66 30; O S ":" 66 32; I S "Unit" 66 34; O S "," 66 38; G S Parenth [] 66 40; O S ":" 66 42; I S "Unit" 66 44; O S "|" 66 48; O S "-" 66 50; O S ">" 66 51; I S "Result" 66 53; O S "<" 66 59; I S "Unit" 66 60; O S "," 66 64; I S "Unit" 66 66; O S ">" 66 70] (RetPath (mk_path false [mk_seg "Result" [O S "<" 66 59; I S "Unit" 66 60; O S "," 66 64; I S "Unit" 66 66; O S ">" 66 70] (S 66 53)])) (EBlock [] [] (S 66 72) [(SExpr (ETry [] (ECall [] (EPath [] (mk_path false [mk_seg "enresult" [] (S 67 25)])) (S 67 33) [(ETuple [] (S 67 34) [] [])] []) (S 67 37)) (Some (S 67 38))); (SLocalInit [] [I S "let" 69 25; I S "_" 69 29; O S "=" 69 31] (EClosure [] [O S "|" 69 33; G S Parenth [G S Parenth [] 69 35; O S "," 69 37; G S Parenth [] 69 39; O S "," 69 41; G S Parenth [] 69 43] 69 34; O S ":" 69 46; G S Parenth [I S "Unit" 69 49; O S "," 69 53; I S "Unit" 69 55; O S "," 69 59; I S "Unit" 69 61] 69 48; O S "|" 69 66; O S "-" 69 68; O S ">" 69 69; I S "Result" 69 71; O S "<" 69 77; I S "Unit" 69 78; O S "," 69 82; I S "Unit" 69 84; O S ">" 69 88] (RetPath (mk_path false [mk_seg "Result" [O S "<" 69 77; I S "Unit" 69 78; O S "," 69 82; I S "Unit" 69 84; O S ">" 69 88] (S 69 71)])) (EBlock [] [] (S 69 90) [(SExpr (ETry [] (ECall [] (EPath [] (mk_path false [mk_seg "enresult" [] (S 70 29)])) (S 70 37) [(ETuple [] (S 70 38) [] [])] []) (S 70 41)) (Some (S 70 42))); (SExpr (ECall [] (EPath [] (mk_path false [mk_seg "Ok" [] (S 72 29)])) (S 72 31) [(ETuple [] (S 72 32) [] [])] []) None)])) [] None [O S ";" 73 26]); (SExpr (ECall [] (EPath [] (mk_path false [mk_seg "Ok" [] (S 75 25)])) (S 75 27) [(ETuple [] (S 75 28) [] [])] []) None)])) [] None [O S ";" 76 22]); (SExpr (ECall [] (EPath [] (mk_path false [mk_seg "Ok" [] (S 78 21)])) (S 78 23) [(ETuple [] (S 78 24) [] [])] []) None)])) [] None [O S ";" 79 18]); (SExpr (ECall [] (EPath [] (mk_path false [mk_seg "Ok" [] (S 81 17)])) (S 81 19) [(ETuple [] (S 81 20) [] [])] []) None)])) [] None [O S ";" 82 14]); (SExpr (ETry [] (ECall [] (EPath [] (mk_path false [mk_seg "enresult" [] (S 83 13)])) (S 83 21) [(ETuple [] (S 83 22) [] [])] []) (S 83 25)) (Some (S 83 26))); (SExpr (ECall [] (EPath [] (mk_path false [mk_seg "Ok" [] (S 85 13)])) (S 85 15) [(ETuple [] (S 85 16) [] [])] []) None)])); (SExpr (ETry [] (ECall [] (EPath [] (mk_path false [mk_seg "enresult" [] (S 87 9)])) (S 87 17) [(ETuple [] (S 87 18) [] [])] []) (S 87 21)) (Some (S 87 22))); (SExpr (ECall [] (EPath [] (mk_path false [mk_seg "Ok" [] (S 89 9)])) (S 89 11) [(ETuple [] (S 89 12) [] [])] []) None)])) [] None [O S ";" 90 6]); (SExpr (ETry [] (ECall [] (EPath [] (mk_path false [mk_seg "enresult" [] (S 91 5)])) (S 91 13) [(ETuple [] (S 91 14) [] [])] []) (S 91 17)) (Some (S 91 18))); (SExpr (ECall [] (EPath [] (mk_path false [mk_seg "Ok" [] (S 93 5)])) (S 93 7) [(ETuple [] (S 93 8) [] [])] []) None)]).
Definition args_special_meta_var_fn_info_1 : list meta := let S := at_ "hooq-macros/tests/special/meta_var/fn_info.rs" in [].
Definition rec_special_meta_var_fn_info_1 : list string :=
  ["fn func ( ) - > Result < ( ) , ( ) > { enresult ( ( ) ) . inspect_err ( | _ | { { : : std : : io : : _eprint ( format_args ! (";
   """\nfn_name:\s{0}\nfn_sig:\s\s{1}\n"" , ""func"" , ""fn\sfunc()\s->\sResult\s<\s(),\s()\s>"" ) ) ; } ; } ) ? ; let _ = | | - > Result < ( ) , ( ) > {";
   "enresult ( ( ) ) . inspect_err ( | _ | { { : : std : : io : : _eprint ( format_args ! ( ""\nfn_name:\s{0}\nfn_sig:\s\s{1}\n"" , ""__closure_in_func__"" ,";
   """|\s|\s->\sResult\s<\s(),\s()\s>\s{}"" ) ) ; } ; } ) ? ; fn _inner ( ) - > Result < ( ) , Unit > { enresult ( ( ) ) . inspect_err ( | _ | { { : : std :";
   ": io : : _eprint ( format_args ! ( ""\nfn_name:\s{0}\nfn_sig:\s\s{1}\n"" , ""_inner"" , ""fn\s_inner()\s->\sResult\s<\s(),\sUnit\s>"" ) ) ; } ; } ) ? ; let";
   "_ = | | - > Result < Unit , Unit > { enresult ( ( ) ) . inspect_err ( | _ | { { : : std : : io : : _eprint ( format_args ! (";
   """\nfn_name:\s{0}\nfn_sig:\s\s{1}\n"" , ""__closure_in__inner__"" , ""|\s|\s->\sResult\s<\sUnit,\sUnit\s>\s{}"" ) ) ; } ; } ) ? ; let _ = | ( ) : Unit | - >";
   "Result < Unit , Unit > { enresult ( ( ) ) . inspect_err ( | _ | { { : : std : : io : : _eprint ( format_args ! ( ""\nfn_name:\s{0}\nfn_sig:\s\s{1}\n"" ,";
   """__closure_in__inner__"" , ""|\s()\s:\sUnit\s|\s->\sResult\s<\sUnit,\sUnit\s>\s{}"" ) ) ; } ; } ) ? ; let _ = | ( ) : Unit , ( ) : Unit | - > Result <";
   "Unit , Unit > { enresult ( ( ) ) . inspect_err ( | _ | { { : : std : : io : : _eprint ( format_args ! ( ""\nfn_name:\s{0}\nfn_sig:\s\s{1}\n"" ,";
   """__closure_in__inner__"" , ""|\s()\s:\sUnit,\s()\s:\sUnit\s|\s->\sResult\s<\sUnit,\sUnit\s>\s{}"" ) ) ; } ; } ) ? ; let _ = | ( ( ) , ( ) , ( ) ) : (";
   "Unit , Unit , Unit ) | - > Result < Unit , Unit > { enresult ( ( ) ) . inspect_err ( | _ | { { : : std : : io : : _eprint ( format_args ! (";
   """\nfn_name:\s{0}\nfn_sig:\s\s{1}\n"" , ""__closure_in__inner__"" , ""|\s((),\s(),\s())\s:\s(Unit,\sUnit,\sUnit)\s|\s->\sResult\s<\sUnit,\sUnit\s>\s{}"" ) )";
   "; } ; } ) ? ; Ok ( ( ) ) } ; Ok ( ( ) ) } ; Ok ( ( ) ) } ; Ok ( ( ) ) } ; enresult ( ( ) ) . inspect_err ( | _ | { { : : std : : io : : _eprint (";
   "format_args ! ( ""\nfn_name:\s{0}\nfn_sig:\s\s{1}\n"" , ""_inner"" , ""fn\s_inner()\s->\sResult\s<\s(),\sUnit\s>"" ) ) ; } ; } ) ? ; Ok ( ( ) ) } enresult (";
   "( ) ) . inspect_err ( | _ | { { : : std : : io : : _eprint ( format_args ! ( ""\nfn_name:\s{0}\nfn_sig:\s\s{1}\n"" , ""__closure_in_func__"" ,";
   """|\s|\s->\sResult\s<\s(),\s()\s>\s{}"" ) ) ; } ; } ) ? ; Ok ( ( ) ) } ; enresult ( ( ) ) . inspect_err ( | _ | { { : : std : : io : : _eprint (";
   "format_args ! ( ""\nfn_name:\s{0}\nfn_sig:\s\s{1}\n"" , ""func"" , ""fn\sfunc()\s->\sResult\s<\s(),\s()\s>"" ) ) ; } ; } ) ? ; Ok ( ( ) ) }"].
(** mod tmp *)
Example recorded_special_meta_var_fn_info_0 : expanded su_special_meta_var_fn_info args_special_meta_var_fn_info_0 it_special_meta_var_fn_info_0 = words rec_special_meta_var_fn_info_0.
Proof. vm_compute. reflexivity. Qed.
(** func *)
Example recorded_special_meta_var_fn_info_1 : expanded su_special_meta_var_fn_info args_special_meta_var_fn_info_1 it_special_meta_var_fn_info_1 = words rec_special_meta_var_fn_info_1.
Proof. vm_compute. reflexivity. Qed.
(** ** hooq-macros/tests/special/meta_var/hooq_meta.rs *)
Definition doc_special_meta_var_hooq_meta : list (string * ftable) := [].
Definition texts_special_meta_var_hooq_meta : list (string * list tt) := let S := at_ "" in [].
Definition strs_special_meta_var_hooq_meta : list (string * string) :=
  [("( InnerStruct , 10 )", "(InnerStruct, 10)");
   ("< hooq_root > / tests / special / meta_var / hooq_meta . rs", "<hooq_root>/tests/special/meta_var/hooq_meta.rs");
   ("Ok ( ( ) )", "Ok(())");
   ("Ok ( 42 )", "Ok(42)");
   ("[ 1 , 2 , 3 ]", "[1, 2, 3]");
   ("fuga : { 0 }", "fuga: {0}
");
   ("hooq_meta . rs", "hooq_meta.rs");
   ("if flag { Ok ( ( ) ) } else { # [ hooq : : fuga = ""fugafuga"" ] Ok ( ( ) ) }", "if flag { Ok(()) } else { #[hooq :: fuga = ""fugafuga""] Ok(()) }");
   ("return Ok ( 100 )", "return Ok(100)");
   ("{ 0 : ? }", "{0:?}
")].
Definition ends_special_meta_var_hooq_meta : list (N * N * (N * N * string)) :=
  [(3, 18, (28, 2, "")); (6, 26, (8, 6, "")); (7, 16, (7, 58, "")); (7, 37, (7, 39, "")); (14, 5, (27, 6, "")); (15, 16, (15, 58, "")); (15, 37, (15, 39, "")); (15, 67, (26, 10, "")); (16, 25, (16, 27, "")); (17, 22, (17, 34, "")); (17, 23, (17, 33, """{info:?}""")); (19, 24, (19, 32, "")); (19, 59, (19, 69, "")); (19, 60, (19, 68, """detail""")); (21, 13, (23, 14, "")); (22, 25, (22, 45, "")); (22, 26, (22, 44, """detail: {self:?}""")); (30, 12, (67, 2, "")); (33, 6, (33, 62, "")); (33, 11, (33, 61, "")); (33, 27, (33, 60, "")); (34, 6, (34, 43, "")); (34, 29, (34, 42, "")); (34, 30, (34, 34, """Ok""")); (34, 36, (34, 41, """Err""")); (35, 6, (35, 39, "")); (35, 36, (35, 38, "")); (36, 6, (36, 31, "")); (36, 20, (36, 30, """hogehoge""")); (37, 6, (37, 40, "")); (38, 6, (38, 31, "")); (38, 21, (38, 30, "")); (39, 20, (39, 45, "")); (39, 41, (39, 43, "")); (39, 61, (39, 63, "")); (39, 65, (54, 6, "")); (40, 10, (40, 31, "")); (41, 18, (41, 23, "")); (43, 9, (45, 10, "")); (44, 22, (44, 27, "")); (47, 10, (47, 25, "")); (47, 17, (47, 24, "")); (50, 10, (50, 43, "")); (50, 25, (50, 42, "")); (51, 10, (51, 27, "")); (52, 10, (52, 33, "")); (56, 6, (56, 62, "")); (56, 11, (56, 61, "")); (56, 21, (56, 54, "")); (57, 6, (57, 43, "")); (57, 29, (57, 42, "")); (57, 30, (57, 34, """Ok""")); (57, 36, (57, 41, """Err""")); (58, 21, (58, 23, "")); (58, 39, (58, 41, "")); (58, 43, (60, 6, "")); (59, 11, (59, 15, "")); (62, 6, (62, 73, "")); (62, 11, (62, 72, "")); (62, 21, (62, 54, "")); (62, 65, (62, 71, """hook""")); (63, 6, (63, 43, "")); (63, 29, (63, 42, "")); (63, 30, (63, 34, """Ok""")); (63, 36, (63, 41, """Err""")); (64, 21, (64, 23, "")); (64, 39, (64, 41, "")); (64, 43, (66, 6, "")); (65, 11, (65, 15, "")); (69, 2, (69, 8, "")); (70, 2, (77, 5, "")); (70, 15, (77, 4, "")); (70, 24, (77, 3, "")); (70, 29, (77, 2, "")); (72, 13, (72, 25, "")); (72, 14, (72, 24, """{meta:?}""")); (74, 16, (74, 22, "")); (74, 57, (74, 65, "")); (74, 58, (74, 64, """fuga""")); (74, 66, (76, 6, "")); (75, 17, (75, 33, "")); (75, 18, (75, 32, """fuga: {fuga}""")); (78, 2, (78, 28, "")); (78, 12, (78, 27, "")); (78, 20, (78, 26, """hoge""")); (79, 2, (79, 39, "")); (79, 25, (79, 38, "")); (79, 26, (79, 30, """Ok""")); (79, 32, (79, 37, """Err""")); (80, 19, (80, 31, "")); (80, 42, (80, 44, "")); (80, 46, (80, 48, "")); (80, 50, (87, 2, "")); (81, 13, (83, 6, "")); (82, 11, (82, 15, "")); (82, 12, (82, 14, "")); (83, 12, (86, 6, "")); (84, 10, (84, 35, "")); (84, 24, (84, 34, """fugafuga""")); (85, 11, (85, 15, "")); (85, 12, (85, 14, "")); (89, 2, (89, 8, "")); (90, 8, (90, 10, "")); (90, 11, (97, 2, "")); (91, 21, (91, 29, "")); (91, 24, (91, 28, "")); (91, 36, (91, 38, "")); (92, 21, (92, 30, "")); (92, 24, (92, 29, "")); (92, 37, (92, 39, "")); (93, 22, (93, 24, "")); (93, 31, (93, 33, "")); (94, 22, (94, 24, "")); (94, 31, (94, 33, "")); (95, 20, (95, 26, "")); (95, 33, (95, 35, "")); (96, 20, (96, 27, "")); (96, 34, (96, 36, ""))].
Definition su_special_meta_var_hooq_meta : setup := mk_setup (mk_features false false true false false "hooq") doc_special_meta_var_hooq_meta texts_special_meta_var_hooq_meta strs_special_meta_var_hooq_meta [] ends_special_meta_var_hooq_meta "hooq_meta".
Definition it_special_meta_var_hooq_meta_0 : item := let S := at_ "<hooq_root>/tests/special/meta_var/hooq_meta.rs" in
  (IFn [mk_attr false (S 34 5) (MList (mk_path false [mk_seg "hooq" [] (S 34 7); mk_seg "tail_expr_idents" [] (S 34 13)]) Parenth [L S (LStr "Ok") 34 30; O S "," 34 34; L S (LStr "Err") 34 36] (S 34 29)); mk_attr false (S 35 5) (MList (mk_path false [mk_seg "hooq" [] (S 35 7); mk_seg "ignore_tail_expr_idents" [] (S 35 13)]) Parenth [] (S 35 36)); mk_attr false (S 36 5) (MNameValue (mk_path false [mk_seg "hooq" [] (S 36 7); mk_seg "hoge" [] (S 36 13)]) (VStr "hogehoge" (S 36 20))); mk_attr false (S 37 5) (MNameValue (mk_path false [mk_seg "hooq" [] (S 37 7); mk_seg "inner_struct" [] (S 37 13)]) (VPath (mk_path false [mk_seg "InnerStruct" [] (S 37 28)]))); mk_attr false (S 38 5) (MNameValue (mk_path false [mk_seg "hooq" [] (S 38 7); mk_seg "array" [] (S 38 13)]) (VOther [G S Bracket [L S (LOther "1") 38 22; O S "," 38 23; L S (LOther "2") 38 25; O S "," 38 26; L S (LOther "3") 38 28] 38 21]))] [I S "pub" 39 5] (mk_sig "use_hook" (RetPath (mk_path false [mk_seg "Result" [O S "<" 39 55; I S "i32" 39 56; O S "," 39 59; G S Parenth [] 39 61; O S ">" 39 63] (S 39 49)])) [I S "fn" 39 9; I S "use_hook" 39 12; G S Parenth [I S "result" 39 21; O S ":" 39 27; I S "Result" 39 29; O S "<" 39 35; I S "i32" 39 36; O S "," 39 39; G S Parenth [] 39 41; O S ">" 39 43] 39 20; O S "-" 39 46; O S ">" 39 47; I S "Result" 39 49; O S "<" 39 55; I S "i32" 39 56; O S "," 39 59; G S Parenth [] 39 61; O S ">" 39 63]) (S 39 65) [(SExpr (EIf [mk_attr false (S 40 9) (MNameValue (mk_path false [mk_seg "hooq" [] (S 40 11); mk_seg "detail" [] (S 40 17)]) (VOther [I S "true" 40 26]))] [I S "if" 41 9] (EBinary [] (ELet [] [I S "let" 41 12; I S "Ok" 41 16; G S Parenth [I S "val" 41 19] 41 18; O S "=" 41 24] (EPath [] (mk_path false [mk_seg "result" [] (S 41 26)]))) [O S "&" 42 13; O S "&" 42 14] (EBinary [] (EPath [] (mk_path false [mk_seg "val" [] (S 42 16)])) [O S ">" 42 20; O S "=" 42 21] (ELit [] (LOther "100") (S 42 23)))) (S 43 9) [(SExpr (EReturn [] (S 44 13) (Some (ECall [] (EPath [] (mk_path false [mk_seg "Ok" [] (S 44 20)])) (S 44 22) [(ELit [] (LOther "100") (S 44 23))] []))) (Some (S 44 27)))] [] None) None); (SItem (IOther [mk_attr false (S 47 9) (MList (mk_path false [mk_seg "derive" [] (S 47 11)]) Parenth [I S "Debug" 47 18] (S 47 17))] [I S "struct" 48 9; I S "InnerStruct" 48 16; O S ";" 48 27])); (SExpr (EPath [mk_attr false (S 50 9) (MNameValue (mk_path false [mk_seg "hooq" [] (S 50 11); mk_seg "tuple" [] (S 50 17)]) (VOther [G S Parenth [I S "InnerStruct" 50 26; O S "," 50 37; L S (LOther "10") 50 39] 50 25])); mk_attr false (S 51 9) (MNameValue (mk_path false [mk_seg "hooq" [] (S 51 11); mk_seg "fuga" [] (S 51 17)]) (VOther [L S (LOther "10") 51 24])); mk_attr false (S 52 9) (MNameValue (mk_path false [mk_seg "hooq" [] (S 52 11); mk_seg "bool_val" [] (S 52 17)]) (VOther [I S "true" 52 28]))] (mk_path false [mk_seg "result" [] (S 53 9)])) None)]).
Definition args_special_meta_var_hooq_meta_0 : list meta := let S := at_ "<hooq_root>/tests/special/meta_var/hooq_meta.rs" in [(MPath (mk_path false [mk_seg "hook" [] (S 33 12)])); (MList (mk_path false [mk_seg "trait_use" [] (S 33 18)]) Parenth [I S "super" 33 28; O S ":" 33 33; O S ":" 33 34; I S "trait_define" 33 35; O S ":" 33 47; O S ":" 33 48; I S "CustomHook" 33 49] (S 33 27))].
Definition rec_special_meta_var_hooq_meta_0 : list string :=
  ["# [ allow ( unused ) ] use super : : trait_define : : CustomHook as _ ; pub fn use_hook ( result : Result < i32 , ( ) > ) - > Result < i32 , ( ) > {";
   "if let Ok ( val ) = result & & val > = 100 { return Ok ( 100 ) . hook ( | | : : hooq : : HooqMeta { line : 44usize , column : 13usize , path :";
   """<hooq_root>/tests/special/meta_var/hooq_meta.rs"" , file : ""hooq_meta.rs"" , source_str : ""return\sOk(100)"" , count : ""1st\sreturn"" , bindings : : :";
   "std : : collections : : HashMap : : from ( [ ( : : std : : string : : ToString : : to_string ( ""array"" ) , { let expr = : : std : : string : :";
   "ToString : : to_string ( ""[1,\s2,\s3]"" ) ; let value : : : std : : rc : : Rc < dyn : : std : : any : : Any > = : : std : : rc : : Rc : : new ( [ 1 , 2";
   ", 3 ] ) ; : : hooq : : BindingPayload { expr , value } } ) , ( : : std : : string : : ToString : : to_string ( ""detail"" ) , { let expr = : : std : :";
   "string : : ToString : : to_string ( ""true"" ) ; let value : : : std : : rc : : Rc < dyn : : std : : any : : Any > = : : std : : rc : : Rc : : new (";
   "true ) ; : : hooq : : BindingPayload { expr , value } } ) , ( : : std : : string : : ToString : : to_string ( ""hoge"" ) , { let expr = : : std : :";
   "string : : ToString : : to_string ( ""\""hogehoge\"""" ) ; let value : : : std : : rc : : Rc < dyn : : std : : any : : Any > = : : std : : rc : : Rc : :";
   "new ( ""hogehoge"" ) ; : : hooq : : BindingPayload { expr , value } } ) , ( : : std : : string : : ToString : : to_string ( ""inner_struct"" ) , { let";
   "expr = : : std : : string : : ToString : : to_string ( ""InnerStruct"" ) ; let value : : : std : : rc : : Rc < dyn : : std : : any : : Any > = : : std :";
   ": rc : : Rc : : new ( InnerStruct ) ; : : hooq : : BindingPayload { expr , value } } ) ] ) } ) ; } struct InnerStruct ; # [ automatically_derived ]";
   "impl : : core : : fmt : : Debug for InnerStruct { # [ inline ] fn fmt ( & self , f : & mut : : core : : fmt : : Formatter ) - > : : core : : fmt : :";
   "Result { : : core : : fmt : : Formatter : : write_str ( f , ""InnerStruct"" ) } } result . hook ( | | : : hooq : : HooqMeta { line : 53usize , column :";
   "9usize , path : ""<hooq_root>/tests/special/meta_var/hooq_meta.rs"" , file : ""hooq_meta.rs"" , source_str : ""result"" , count : ""1st\stail\sexpr"" ,";
   "bindings : : : std : : collections : : HashMap : : from ( [ ( : : std : : string : : ToString : : to_string ( ""array"" ) , { let expr = : : std : :";
   "string : : ToString : : to_string ( ""[1,\s2,\s3]"" ) ; let value : : : std : : rc : : Rc < dyn : : std : : any : : Any > = : : std : : rc : : Rc : :";
   "new ( [ 1 , 2 , 3 ] ) ; : : hooq : : BindingPayload { expr , value } } ) , ( : : std : : string : : ToString : : to_string ( ""bool_val"" ) , { let expr";
   "= : : std : : string : : ToString : : to_string ( ""true"" ) ; let value : : : std : : rc : : Rc < dyn : : std : : any : : Any > = : : std : : rc : : Rc";
   ": : new ( true ) ; : : hooq : : BindingPayload { expr , value } } ) , ( : : std : : string : : ToString : : to_string ( ""fuga"" ) , { let expr = : :";
   "std : : string : : ToString : : to_string ( ""10"" ) ; let value : : : std : : rc : : Rc < dyn : : std : : any : : Any > = : : std : : rc : : Rc : : new";
   "( 10 ) ; : : hooq : : BindingPayload { expr , value } } ) , ( : : std : : string : : ToString : : to_string ( ""hoge"" ) , { let expr = : : std : :";
   "string : : ToString : : to_string ( ""\""hogehoge\"""" ) ; let value : : : std : : rc : : Rc < dyn : : std : : any : : Any > = : : std : : rc : : Rc : :";
   "new ( ""hogehoge"" ) ; : : hooq : : BindingPayload { expr , value } } ) , ( : : std : : string : : ToString : : to_string ( ""inner_struct"" ) , { let";
   "expr = : : std : : string : : ToString : : to_string ( ""InnerStruct"" ) ; let value : : : std : : rc : : Rc < dyn : : std : : any : : Any > = : : std :";
   ": rc : : Rc : : new ( InnerStruct ) ; : : hooq : : BindingPayload { expr , value } } ) , ( : : std : : string : : ToString : : to_string ( ""tuple"" ) ,";
   "{ let expr = : : std : : string : : ToString : : to_string ( ""(InnerStruct,\s10)"" ) ; let value : : : std : : rc : : Rc < dyn : : std : : any : : Any";
   "> = : : std : : rc : : Rc : : new ( ( InnerStruct , 10 ) ) ; : : hooq : : BindingPayload { expr , value } } ) ] ) } ) }"].
Definition it_special_meta_var_hooq_meta_1 : item := let S := at_ "<hooq_root>/tests/special/meta_var/hooq_meta.rs" in
  (IFn [mk_attr false (S 57 5) (MList (mk_path false [mk_seg "hooq" [] (S 57 7); mk_seg "tail_expr_idents" [] (S 57 13)]) Parenth [L S (LStr "Ok") 57 30; O S "," 57 34; L S (LStr "Err") 57 36] (S 57 29))] [I S "pub" 58 5] (mk_sig "use_hook2" (RetPath (mk_path false [mk_seg "Result" [O S "<" 58 33; I S "i32" 58 34; O S "," 58 37; G S Parenth [] 58 39; O S ">" 58 41] (S 58 27)])) [I S "fn" 58 9; I S "use_hook2" 58 12; G S Parenth [] 58 21; O S "-" 58 24; O S ">" 58 25; I S "Result" 58 27; O S "<" 58 33; I S "i32" 58 34; O S "," 58 37; G S Parenth [] 58 39; O S ">" 58 41]) (S 58 43) [(SExpr (ECall [] (EPath [] (mk_path false [mk_seg "Ok" [] (S 59 9)])) (S 59 11) [(ELit [] (LOther "42") (S 59 12))] []) None)]).
Definition args_special_meta_var_hooq_meta_1 : list meta := let S := at_ "<hooq_root>/tests/special/meta_var/hooq_meta.rs" in [(MList (mk_path false [mk_seg "trait_use" [] (S 56 12)]) Parenth [I S "super" 56 22; O S ":" 56 27; O S ":" 56 28; I S "trait_define" 56 29; O S ":" 56 41; O S ":" 56 42; I S "CustomHook" 56 43] (S 56 21)); (MPath (mk_path false [mk_seg "hook" [] (S 56 56)]))].
Definition rec_special_meta_var_hooq_meta_1 : list string :=
  ["# [ allow ( unused ) ] use super : : trait_define : : CustomHook as _ ; pub fn use_hook2 ( ) - > Result < i32 , ( ) > { Ok ( 42 ) . hook ( | | : :";
   "hooq : : HooqMeta { line : 59usize , column : 9usize , path : ""<hooq_root>/tests/special/meta_var/hooq_meta.rs"" , file : ""hooq_meta.rs"" , source_str :";
   """Ok(42)"" , count : ""1st\stail\sexpr"" , bindings : : : std : : collections : : HashMap : : from ( [ ] ) } ) }"].
Definition it_special_meta_var_hooq_meta_2 : item := let S := at_ "<hooq_root>/tests/special/meta_var/hooq_meta.rs" in
  (IFn [mk_attr false (S 63 5) (MList (mk_path false [mk_seg "hooq" [] (S 63 7); mk_seg "tail_expr_idents" [] (S 63 13)]) Parenth [L S (LStr "Ok") 63 30; O S "," 63 34; L S (LStr "Err") 63 36] (S 63 29))] [I S "pub" 64 5] (mk_sig "use_hook3" (RetPath (mk_path false [mk_seg "Result" [O S "<" 64 33; I S "i32" 64 34; O S "," 64 37; G S Parenth [] 64 39; O S ">" 64 41] (S 64 27)])) [I S "fn" 64 9; I S "use_hook3" 64 12; G S Parenth [] 64 21; O S "-" 64 24; O S ">" 64 25; I S "Result" 64 27; O S "<" 64 33; I S "i32" 64 34; O S "," 64 37; G S Parenth [] 64 39; O S ">" 64 41]) (S 64 43) [(SExpr (ECall [] (EPath [] (mk_path false [mk_seg "Ok" [] (S 65 9)])) (S 65 11) [(ELit [] (LOther "42") (S 65 12))] []) None)]).
Definition args_special_meta_var_hooq_meta_2 : list meta := let S := at_ "<hooq_root>/tests/special/meta_var/hooq_meta.rs" in [(MList (mk_path false [mk_seg "trait_use" [] (S 62 12)]) Parenth [I S "super" 62 22; O S ":" 62 27; O S ":" 62 28; I S "trait_define" 62 29; O S ":" 62 41; O S ":" 62 42; I S "CustomHook" 62 43] (S 62 21)); (MNameValue (mk_path false [mk_seg "flavor" [] (S 62 56)]) (VStr "hook" (S 62 65)))].
Definition rec_special_meta_var_hooq_meta_2 : list string :=
  ["# [ allow ( unused ) ] use super : : trait_define : : CustomHook as _ ; pub fn use_hook3 ( ) - > Result < i32 , ( ) > { Ok ( 42 ) . hook ( | | : :";
   "hooq : : HooqMeta { line : 65usize , column : 9usize , path : ""<hooq_root>/tests/special/meta_var/hooq_meta.rs"" , file : ""hooq_meta.rs"" , source_str :";
   """Ok(42)"" , count : ""1st\stail\sexpr"" , bindings : : : std : : collections : : HashMap : : from ( [ ] ) } ) }"].
Definition it_special_meta_var_hooq_meta_3 : item := let S := at_ "<hooq_root>/tests/special/meta_var/hooq_meta.rs" in
  (IFn [mk_attr false (S 70 1) (MList (mk_path false [mk_seg "hooq" [] (S 70 3); mk_seg "method" [] (S 70 9)]) Parenth [O S "." 70 16; I S "inspect" 70 17; G S Parenth [O S "|" 70 25; I S "_" 70 26; O S "|" 70 27; G S Brace [I S "let" 71 5; I S "meta" 71 9; O S "=" 71 14; O S "$" 71 16; I S "hooq_meta" 71 17; O S ";" 71 26; I S "println" 72 5; O S "!" 72 12; G S Parenth [L S (LStr "{meta:?}") 72 14] 72 13; O S ";" 72 25; I S "if" 74 5; I S "let" 74 8; I S "Some" 74 12; G S Parenth [I S "fuga" 74 17] 74 16; O S "=" 74 23; I S "meta" 74 25; O S "." 74 29; I S "get_binding" 74 30; O S ":" 74 41; O S ":" 74 42; O S "<" 74 43; O S "&" 74 44; O S "'" 74 45; I S "static" 74 46; I S "str" 74 53; O S ">" 74 56; G S Parenth [L S (LStr "fuga") 74 58] 74 57; G S Brace [I S "println" 75 9; O S "!" 75 16; G S Parenth [L S (LStr "fuga: {fuga}") 75 18] 75 17; O S ";" 75 33] 74 66] 70 29] 70 24] (S 70 15)); mk_attr false (S 78 1) (MList (mk_path false [mk_seg "hooq" [] (S 78 3); mk_seg "var" [] (S 78 9)]) Parenth [I S "hoge" 78 13; O S "=" 78 18; L S (LStr "hoge") 78 20] (S 78 12)); mk_attr false (S 79 1) (MList (mk_path false [mk_seg "hooq" [] (S 79 3); mk_seg "tail_expr_idents" [] (S 79 9)]) Parenth [L S (LStr "Ok") 79 26; O S "," 79 30; L S (LStr "Err") 79 32] (S 79 25))] [] (mk_sig "using_hooq_meta" (RetPath (mk_path false [mk_seg "Result" [O S "<" 80 41; G S Parenth [] 80 42; O S "," 80 44; G S Parenth [] 80 46; O S ">" 80 48] (S 80 35)])) [I S "fn" 80 1; I S "using_hooq_meta" 80 4; G S Parenth [I S "flag" 80 20; O S ":" 80 24; I S "bool" 80 26] 80 19; O S "-" 80 32; O S ">" 80 33; I S "Result" 80 35; O S "<" 80 41; G S Parenth [] 80 42; O S "," 80 44; G S Parenth [] 80 46; O S ">" 80 48]) (S 80 50) [(SExpr (EIf [] [I S "if" 81 5] (EPath [] (mk_path false [mk_seg "flag" [] (S 81 8)])) (S 81 13) [(SExpr (ECall [] (EPath [] (mk_path false [mk_seg "Ok" [] (S 82 9)])) (S 82 11) [(ETuple [] (S 82 12) [] [])] []) None)] [I S "else" 83 7] (Some (EBlock [] [] (S 83 12) [(SExpr (ECall [mk_attr false (S 84 9) (MNameValue (mk_path false [mk_seg "hooq" [] (S 84 11); mk_seg "fuga" [] (S 84 17)]) (VStr "fugafuga" (S 84 24)))] (EPath [] (mk_path false [mk_seg "Ok" [] (S 85 9)])) (S 85 11) [(ETuple [] (S 85 12) [] [])] []) None)]))) None)]).
Definition args_special_meta_var_hooq_meta_3 : list meta := let S := at_ "<hooq_root>/tests/special/meta_var/hooq_meta.rs" in [].
Definition rec_special_meta_var_hooq_meta_3 : list string :=
  ["fn using_hooq_meta ( flag : bool ) - > Result < ( ) , ( ) > { if flag { Ok ( ( ) ) . inspect ( | _ | { let meta = : : hooq : : HooqMeta { line :";
   "82usize , column : 9usize , path : ""<hooq_root>/tests/special/meta_var/hooq_meta.rs"" , file : ""hooq_meta.rs"" , source_str : ""Ok(())"" , count :";
   """1st\stail\sexpr"" , bindings : : : std : : collections : : HashMap : : from ( [ ( : : std : : string : : ToString : : to_string ( ""hoge"" ) , { let";
   "expr = : : std : : string : : ToString : : to_string ( ""\""hoge\"""" ) ; let value : : : std : : rc : : Rc < dyn : : std : : any : : Any > = : : std : :";
   "rc : : Rc : : new ( ""hoge"" ) ; : : hooq : : BindingPayload { expr , value } } ) ] ) } ; { : : std : : io : : _print ( format_args ! ( ""{0:?}\n"" , meta";
   ") ) ; } ; if let Some ( fuga ) = meta . get_binding : : < & ' static str > ( ""fuga"" ) { { : : std : : io : : _print ( format_args ! ( ""fuga:\s{0}\n"" ,";
   "fuga ) ) ; } ; } } ) } else { Ok ( ( ) ) . inspect ( | _ | { let meta = : : hooq : : HooqMeta { line : 85usize , column : 9usize , path :";
   """<hooq_root>/tests/special/meta_var/hooq_meta.rs"" , file : ""hooq_meta.rs"" , source_str : ""Ok(())"" , count : ""2nd\stail\sexpr"" , bindings : : : std : :";
   "collections : : HashMap : : from ( [ ( : : std : : string : : ToString : : to_string ( ""fuga"" ) , { let expr = : : std : : string : : ToString : :";
   "to_string ( ""\""fugafuga\"""" ) ; let value : : : std : : rc : : Rc < dyn : : std : : any : : Any > = : : std : : rc : : Rc : : new ( ""fugafuga"" ) ; : :";
   "hooq : : BindingPayload { expr , value } } ) , ( : : std : : string : : ToString : : to_string ( ""hoge"" ) , { let expr = : : std : : string : :";
   "ToString : : to_string ( ""\""hoge\"""" ) ; let value : : : std : : rc : : Rc < dyn : : std : : any : : Any > = : : std : : rc : : Rc : : new ( ""hoge"" ) ;";
   ": : hooq : : BindingPayload { expr , value } } ) ] ) } ; { : : std : : io : : _print ( format_args ! ( ""{0:?}\n"" , meta ) ) ; } ; if let Some ( fuga )";
   "= meta . get_binding : : < & ' static str > ( ""fuga"" ) { { : : std : : io : : _print ( format_args ! ( ""fuga:\s{0}\n"" , fuga ) ) ; } ; } } ) } .";
   "inspect ( | _ | { let meta = : : hooq : : HooqMeta { line : 81usize , column : 5usize , path : ""<hooq_root>/tests/special/meta_var/hooq_meta.rs"" ,";
   "file : ""hooq_meta.rs"" , source_str : ""if\sflag\s{\sOk(())\s}\selse\s{\s#[hooq\s::\sfuga\s=\s\""fugafuga\""]\sOk(())\s}"" , count : ""3rd\stail\sexpr"" ,";
   "bindings : : : std : : collections : : HashMap : : from ( [ ( : : std : : string : : ToString : : to_string ( ""hoge"" ) , { let expr = : : std : :";
   "string : : ToString : : to_string ( ""\""hoge\"""" ) ; let value : : : std : : rc : : Rc < dyn : : std : : any : : Any > = : : std : : rc : : Rc : : new (";
   """hoge"" ) ; : : hooq : : BindingPayload { expr , value } } ) ] ) } ; { : : std : : io : : _print ( format_args ! ( ""{0:?}\n"" , meta ) ) ; } ; if let";
   "Some ( fuga ) = meta . get_binding : : < & ' static str > ( ""fuga"" ) { { : : std : : io : : _print ( format_args ! ( ""fuga:\s{0}\n"" , fuga ) ) ; } ; }";
   "} ) }"].
(** mod custom/use_hook *)
Example recorded_special_meta_var_hooq_meta_0 : expanded su_special_meta_var_hooq_meta args_special_meta_var_hooq_meta_0 it_special_meta_var_hooq_meta_0 = words rec_special_meta_var_hooq_meta_0.
Proof. vm_compute. reflexivity. Qed.
(** mod custom/use_hook2 *)
Example recorded_special_meta_var_hooq_meta_1 : expanded su_special_meta_var_hooq_meta args_special_meta_var_hooq_meta_1 it_special_meta_var_hooq_meta_1 = words rec_special_meta_var_hooq_meta_1.
Proof. vm_compute. reflexivity. Qed.
(** mod custom/use_hook3 *)
Example recorded_special_meta_var_hooq_meta_2 : expanded su_special_meta_var_hooq_meta args_special_meta_var_hooq_meta_2 it_special_meta_var_hooq_meta_2 = words rec_special_meta_var_hooq_meta_2.
Proof. vm_compute. reflexivity. Qed.
(** using_hooq_meta *)
Example recorded_special_meta_var_hooq_meta_3 : expanded su_special_meta_var_hooq_meta args_special_meta_var_hooq_meta_3 it_special_meta_var_hooq_meta_3 = words rec_special_meta_var_hooq_meta_3.
Proof. vm_compute. reflexivity. Qed.
(** ** hooq-macros/tests/special/meta_var/path.rs *)
Definition doc_special_meta_var_path : list (string * ftable) := [].
Definition texts_special_meta_var_path : list (string * list tt) := let S := at_ "" in [].
Definition strs_special_meta_var_path : list (string * string) :=
  [("< hooq_root > / tests / special / meta_var / path . rs", "<hooq_root>/tests/special/meta_var/path.rs");
   ("path : { 0 }", "path: {0}
")].
Definition ends_special_meta_var_path : list (N * N * (N * N * string)) :=
  [(3, 2, (3, 8, "")); (4, 2, (6, 5, "")); (4, 15, (6, 4, "")); (4, 24, (6, 3, "")); (4, 29, (6, 2, "")); (5, 14, (5, 33, "")); (5, 15, (5, 25, """path: {}""")); (7, 8, (7, 10, "")); (7, 21, (7, 23, "")); (7, 25, (7, 27, "")); (7, 29, (9, 2, "")); (8, 8, (8, 12, "")); (8, 9, (8, 11, "")); (11, 2, (11, 8, "")); (12, 8, (12, 10, "")); (12, 11, (14, 2, "")); (13, 9, (13, 11, "")); (13, 22, (13, 24, ""))].
Definition su_special_meta_var_path : setup := mk_setup (mk_features false false true false false "hooq") doc_special_meta_var_path texts_special_meta_var_path strs_special_meta_var_path [] ends_special_meta_var_path "path".
Definition it_special_meta_var_path_0 : item := let S := at_ "<hooq_root>/tests/special/meta_var/path.rs" in
  (IFn [mk_attr false (S 4 1) (MList (mk_path false [mk_seg "hooq" [] (S 4 3); mk_seg "method" [] (S 4 9)]) Parenth [O S "." 4 16; I S "inspect" 4 17; G S Parenth [O S "|" 4 25; I S "_" 4 26; O S "|" 4 27; G S Brace [I S "eprintln" 5 5; O S "!" 5 13; G S Parenth [L S (LStr "path: {}") 5 15; O S "," 5 25; O S "$" 5 27; I S "path" 5 28] 5 14; O S ";" 5 33] 4 29] 4 24] (S 4 15))] [] (mk_sig "func" (RetPath (mk_path false [mk_seg "Result" [O S "<" 7 20; G S Parenth [] 7 21; O S "," 7 23; G S Parenth [] 7 25; O S ">" 7 27] (S 7 14)])) [I S "fn" 7 1; I S "func" 7 4; G S Parenth [] 7 8; O S "-" 7 11; O S ">" 7 12; I S "Result" 7 14; O S "<" 7 20; G S Parenth [] 7 21; O S "," 7 23; G S Parenth [] 7 25; O S ">" 7 27]) (S 7 29) [(SExpr (ECall [] (EPath [] (mk_path false [mk_seg "Err" [] (S 8 5)])) (S 8 8) [(ETuple [] (S 8 9) [] [])] []) None)]).
Definition args_special_meta_var_path_0 : list meta := let S := at_ "<hooq_root>/tests/special/meta_var/path.rs" in [].
Definition rec_special_meta_var_path_0 : list string :=
  ["fn func ( ) - > Result < ( ) , ( ) > { Err ( ( ) ) . inspect ( | _ | { { : : std : : io : : _eprint ( format_args ! ( ""path:\s{0}\n"" ,";
   """<hooq_root>/tests/special/meta_var/path.rs"" ) ) ; } ; } ) }"].
(** func *)
Example recorded_special_meta_var_path_0 : expanded su_special_meta_var_path args_special_meta_var_path_0 it_special_meta_var_path_0 = words rec_special_meta_var_path_0.
Proof. vm_compute. reflexivity. Qed.
(** ** hooq-macros/tests/special/meta_var/so_far.rs *)
Definition doc_special_meta_var_so_far : list (string * ftable) := [].
Definition texts_special_meta_var_so_far : list (string * list tt) := let S := at_ "" in [].
Definition strs_special_meta_var_so_far : list (string * string) :=
  [].
Definition ends_special_meta_var_so_far : list (N * N * (N * N * string)) :=
  [(3, 11, (3, 32, "")); (3, 38, (6, 2, "")); (4, 13, (4, 31, "")); (4, 14, (4, 30, """ファイア! @ {line}""")); (8, 16, (8, 37, "")); (8, 43, (11, 2, "")); (9, 13, (9, 34, "")); (9, 14, (9, 33, """アイスストーム! @ {line}""")); (13, 19, (13, 40, "")); (13, 46, (16, 2, "")); (14, 13, (14, 34, "")); (14, 14, (14, 33, """ブレインダムド! @ {line}""")); (18, 13, (18, 34, "")); (18, 40, (21, 2, "")); (19, 13, (19, 31, "")); (19, 14, (19, 30, """ジュゲム! @ {line}""")); (23, 14, (23, 35, "")); (23, 41, (26, 2, "")); (24, 13, (24, 32, "")); (24, 14, (24, 31, """ばよえ～ん! @ {line}""")); (28, 21, (44, 2, "")); (29, 12, (29, 31, "")); (29, 40, (31, 6, "")); (30, 13, (30, 25, "")); (32, 17, (32, 36, "")); (32, 45, (34, 6, "")); (33, 18, (33, 30, "")); (35, 20, (35, 39, "")); (35, 48, (37, 6, "")); (36, 21, (36, 33, "")); (38, 14, (38, 33, "")); (38, 42, (40, 6, "")); (39, 15, (39, 27, "")); (41, 15, (41, 34, "")); (41, 43, (43, 6, "")); (42, 16, (42, 28, "")); (46, 29, (46, 31, "")); (48, 15, (48, 23, "")); (48, 37, (48, 39, "")); (48, 41, (50, 2, "")); (49, 7, (49, 12, "")); (52, 2, (52, 8, "")); (53, 2, (53, 30, "")); (53, 15, (53, 29, "")); (53, 21, (53, 28, "")); (54, 8, (54, 10, "")); (54, 21, (54, 23, "")); (54, 25, (54, 27, "")); (54, 29, (90, 2, "")); (55, 13, (55, 17, "")); (55, 14, (55, 16, "")); (57, 6, (57, 47, "")); (57, 19, (57, 46, "")); (57, 38, (57, 45, "")); (58, 5, (82, 6, "")); (59, 17, (59, 21, "")); (59, 18, (59, 20, "")); (61, 10, (61, 54, "")); (61, 23, (61, 53, "")); (61, 45, (61, 52, "")); (62, 9, (78, 10, "")); (63, 21, (63, 25, "")); (63, 22, (63, 24, "")); (65, 14, (65, 52, "")); (65, 27, (65, 51, "")); (65, 43, (65, 50, "")); (66, 13, (74, 14, "")); (67, 25, (67, 29, "")); (67, 26, (67, 28, "")); (69, 18, (69, 57, "")); (69, 31, (69, 56, "")); (69, 48, (69, 55, "")); (70, 25, (70, 29, "")); (70, 26, (70, 28, "")); (72, 18, (72, 57, "")); (72, 31, (72, 56, "")); (72, 40, (72, 47, "")); (73, 25, (73, 29, "")); (73, 26, (73, 28, "")); (76, 14, (76, 52, "")); (76, 27, (76, 51, "")); (76, 35, (76, 42, "")); (77, 21, (77, 25, "")); (77, 22, (77, 24, "")); (80, 10, (80, 54, "")); (80, 23, (80, 53, "")); (80, 37, (80, 44, "")); (81, 17, (81, 21, "")); (81, 18, (81, 20, "")); (84, 6, (84, 47, "")); (84, 19, (84, 46, "")); (84, 30, (84, 37, "")); (85, 13, (85, 17, "")); (85, 14, (85, 16, "")); (87, 13, (87, 17, "")); (87, 14, (87, 16, "")); (89, 7, (89, 11, "")); (89, 8, (89, 10, "")); (92, 2, (92, 8, "")); (93, 2, (93, 36, "")); (93, 15, (93, 35, "")); (93, 20, (93, 34, "")); (94, 9, (94, 11, "")); (94, 22, (94, 24, "")); (94, 26, (94, 28, "")); (94, 30, (122, 2, "")); (95, 13, (95, 17, "")); (95, 14, (95, 16, "")); (97, 6, (97, 47, "")); (97, 19, (97, 46, "")); (97, 29, (97, 45, "")); (98, 5, (117, 6, "")); (99, 17, (99, 21, "")); (99, 18, (99, 20, "")); (101, 10, (101, 54, "")); (101, 23, (101, 53, "")); (101, 36, (101, 52, "")); (102, 9, (114, 10, "")); (103, 21, (103, 25, "")); (103, 22, (103, 24, "")); (105, 14, (105, 52, "")); (105, 27, (105, 51, "")); (105, 34, (105, 50, "")); (106, 13, (111, 14, "")); (107, 25, (107, 29, "")); (107, 26, (107, 28, "")); (109, 18, (109, 57, "")); (109, 31, (109, 56, "")); (109, 39, (109, 55, "")); (110, 25, (110, 29, "")); (110, 26, (110, 28, "")); (113, 21, (113, 25, "")); (113, 22, (113, 24, "")); (116, 17, (116, 21, "")); (116, 18, (116, 20, "")); (119, 13, (119, 17, "")); (119, 14, (119, 16, "")); (121, 7, (121, 11, "")); (121, 8, (121, 10, "")); (124, 2, (124, 8, "")); (125, 2, (125, 30, "")); (125, 15, (125, 29, "")); (125, 21, (125, 28, "")); (126, 9, (126, 11, "")); (126, 22, (126, 24, "")); (126, 26, (126, 28, "")); (126, 30, (150, 2, "")); (127, 13, (127, 17, "")); (127, 14, (127, 16, "")); (129, 6, (129, 53, "")); (129, 19, (129, 52, "")); (129, 29, (129, 51, "")); (130, 5, (147, 6, "")); (131, 17, (131, 21, "")); (131, 18, (131, 20, "")); (133, 10, (133, 53, "")); (133, 23, (133, 52, "")); (133, 44, (133, 51, "")); (134, 9, (146, 10, "")); (135, 21, (135, 25, "")); (135, 22, (135, 24, "")); (137, 14, (137, 51, "")); (137, 27, (137, 50, "")); (137, 42, (137, 49, "")); (138, 13, (143, 14, "")); (139, 25, (139, 29, "")); (139, 26, (139, 28, "")); (141, 18, (141, 57, "")); (141, 31, (141, 56, "")); (141, 39, (141, 55, "")); (142, 25, (142, 29, "")); (142, 26, (142, 28, "")); (145, 21, (145, 25, "")); (145, 22, (145, 24, "")); (149, 7, (149, 11, "")); (149, 8, (149, 10, "")); (152, 2, (152, 8, "")); (153, 13, (153, 15, "")); (153, 16, (157, 2, "")); (154, 9, (154, 11, "")); (154, 18, (154, 20, "")); (155, 10, (155, 12, "")); (155, 19, (155, 21, "")); (156, 10, (156, 12, "")); (156, 19, (156, 21, ""))].
Definition su_special_meta_var_so_far : setup := mk_setup (mk_features false false true false false "hooq") doc_special_meta_var_so_far texts_special_meta_var_so_far strs_special_meta_var_so_far [] ends_special_meta_var_so_far "so_far".
Definition it_special_meta_var_so_far_0 : item := let S := at_ "hooq-macros/tests/special/meta_var/so_far.rs" in
  (IFn [mk_attr false (S 53 1) (MList (mk_path false [mk_seg "hooq" [] (S 53 3); mk_seg "method" [] (S 53 9)]) Parenth [O S "." 53 16; I S "fire" 53 17; G S Parenth [O S "$" 53 22; I S "line" 53 23] 53 21] (S 53 15))] [] (mk_sig "func" (RetPath (mk_path false [mk_seg "Result" [O S "<" 54 20; G S Parenth [] 54 21; O S "," 54 23; G S Parenth [] 54 25; O S ">" 54 27] (S 54 14)])) [I S "fn" 54 1; I S "func" 54 4; G S Parenth [] 54 8; O S "-" 54 11; O S ">" 54 12; I S "Result" 54 14; O S "<" 54 20; G S Parenth [] 54 21; O S "," 54 23; G S Parenth [] 54 25; O S ">" 54 27]) (S 54 29) [(SExpr (ETry [] (ECall [] (EPath [] (mk_path false [mk_seg "enresult" [] (S 55 5)])) (S 55 13) [(ETuple [] (S 55 14) [] [])] []) (S 55 17)) (Some (S 55 18))); (SExpr (EBlock [mk_attr false (S 57 5) (MList (mk_path false [mk_seg "hooq" [] (S 57 7); mk_seg "method" [] (S 57 13)]) Parenth [O S "." 57 20; O S "$" 57 21; I S "so_far" 57 22; O S "." 57 28; I S "ice_storm" 57 29; G S Parenth [O S "$" 57 39; I S "line" 57 40] 57 38] (S 57 19))] [] (S 58 5) [(SExpr (ETry [] (ECall [] (EPath [] (mk_path false [mk_seg "enresult" [] (S 59 9)])) (S 59 17) [(ETuple [] (S 59 18) [] [])] []) (S 59 21)) (Some (S 59 22))); (SExpr (EBlock [mk_attr false (S 61 9) (MList (mk_path false [mk_seg "hooq" [] (S 61 11); mk_seg "method" [] (S 61 17)]) Parenth [O S "." 61 24; O S "$" 61 25; I S "so_far" 61 26; O S "." 61 32; I S "brain_damned" 61 33; G S Parenth [O S "$" 61 46; I S "line" 61 47] 61 45] (S 61 23))] [] (S 62 9) [(SExpr (ETry [] (ECall [] (EPath [] (mk_path false [mk_seg "enresult" [] (S 63 13)])) (S 63 21) [(ETuple [] (S 63 22) [] [])] []) (S 63 25)) (Some (S 63 26))); (SExpr (EBlock [mk_attr false (S 65 13) (MList (mk_path false [mk_seg "hooq" [] (S 65 15); mk_seg "method" [] (S 65 21)]) Parenth [O S "." 65 28; O S "$" 65 29; I S "so_far" 65 30; O S "." 65 36; I S "jugemu" 65 37; G S Parenth [O S "$" 65 44; I S "line" 65 45] 65 43] (S 65 27))] [] (S 66 13) [(SExpr (ETry [] (ECall [] (EPath [] (mk_path false [mk_seg "enresult" [] (S 67 17)])) (S 67 25) [(ETuple [] (S 67 26) [] [])] []) (S 67 29)) (Some (S 67 30))); (SExpr (ETry [mk_attr false (S 69 17) (MList (mk_path false [mk_seg "hooq" [] (S 69 19); mk_seg "method" [] (S 69 25)]) Parenth [O S "." 69 32; O S "$" 69 33; I S "so_far" 69 34; O S "." 69 40; I S "bayoeen" 69 41; G S Parenth [O S "$" 69 49; I S "line" 69 50] 69 48] (S 69 31))] (ECall [] (EPath [] (mk_path false [mk_seg "enresult" [] (S 70 17)])) (S 70 25) [(ETuple [] (S 70 26) [] [])] []) (S 70 29)) (Some (S 70 30))); (SExpr (ETry [mk_attr false (S 72 17) (MList (mk_path false [mk_seg "hooq" [] (S 72 19); mk_seg "method" [] (S 72 25)]) Parenth [O S "." 72 32; I S "bayoeen" 72 33; G S Parenth [O S "$" 72 41; I S "line" 72 42] 72 40; O S "." 72 47; O S "$" 72 48; I S "so_far" 72 49] (S 72 31))] (ECall [] (EPath [] (mk_path false [mk_seg "enresult" [] (S 73 17)])) (S 73 25) [(ETuple [] (S 73 26) [] [])] []) (S 73 29)) (Some (S 73 30)))]) None); (SExpr (ETry [mk_attr false (S 76 13) (MList (mk_path false [mk_seg "hooq" [] (S 76 15); mk_seg "method" [] (S 76 21)]) Parenth [O S "." 76 28; I S "jugemu" 76 29; G S Parenth [O S "$" 76 36; I S "line" 76 37] 76 35; O S "." 76 42; O S "$" 76 43; I S "so_far" 76 44] (S 76 27))] (ECall [] (EPath [] (mk_path false [mk_seg "enresult" [] (S 77 13)])) (S 77 21) [(ETuple [] (S 77 22) [] [])] []) (S 77 25)) (Some (S 77 26)))]) None); (SExpr (ETry [mk_attr false (S 80 9) (MList (mk_path false [mk_seg "hooq" [] (S 80 11); mk_seg "method" [] (S 80 17)]) Parenth [O S "." 80 24; I S "brain_damned" 80 25; G S Parenth [O S "$" 80 38; I S "line" 80 39] 80 37; O S "." 80 44; O S "$" 80 45; I S "so_far" 80 46] (S 80 23))] (ECall [] (EPath [] (mk_path false [mk_seg "enresult" [] (S 81 9)])) (S 81 17) [(ETuple [] (S 81 18) [] [])] []) (S 81 21)) (Some (S 81 22)))]) None); (SExpr (ETry [mk_attr false (S 84 5) (MList (mk_path false [mk_seg "hooq" [] (S 84 7); mk_seg "method" [] (S 84 13)]) Parenth [O S "." 84 20; I S "ice_storm" 84 21; G S Parenth [O S "$" 84 31; I S "line" 84 32] 84 30; O S "." 84 37; O S "$" 84 38; I S "so_far" 84 39] (S 84 19))] (ECall [] (EPath [] (mk_path false [mk_seg "enresult" [] (S 85 5)])) (S 85 13) [(ETuple [] (S 85 14) [] [])] []) (S 85 17)) (Some (S 85 18))); (SExpr (ETry [] (ECall [] (EPath [] (mk_path false [mk_seg "enresult" [] (S 87 5)])) (S 87 13) [(ETuple [] (S 87 14) [] [])] []) (S 87 17)) (Some (S 87 18))); (SExpr (ECall [] (EPath [] (mk_path false [mk_seg "Ok" [] (S 89 5)])) (S 89 7) [(ETuple [] (S 89 8) [] [])] []) None)]).
Definition args_special_meta_var_so_far_0 : list meta := let S := at_ "hooq-macros/tests/special/meta_var/so_far.rs" in [].
Definition rec_special_meta_var_so_far_0 : list string :=
  ["fn func ( ) - > Result < ( ) , ( ) > { enresult ( ( ) ) . fire ( 55usize ) ? ; { enresult ( ( ) ) . fire ( 59usize ) . ice_storm ( 59usize ) ? ; {";
   "enresult ( ( ) ) . fire ( 63usize ) . ice_storm ( 63usize ) . brain_damned ( 63usize ) ? ; { enresult ( ( ) ) . fire ( 67usize ) . ice_storm ( 67usize";
   ") . brain_damned ( 67usize ) . jugemu ( 67usize ) ? ; enresult ( ( ) ) . fire ( 70usize ) . ice_storm ( 70usize ) . brain_damned ( 70usize ) . jugemu";
   "( 70usize ) . bayoeen ( 70usize ) ? ; enresult ( ( ) ) . bayoeen ( 73usize ) . fire ( 73usize ) . ice_storm ( 73usize ) . brain_damned ( 73usize ) .";
   "jugemu ( 73usize ) ? ; } enresult ( ( ) ) . jugemu ( 77usize ) . fire ( 77usize ) . ice_storm ( 77usize ) . brain_damned ( 77usize ) ? ; } enresult (";
   "( ) ) . brain_damned ( 81usize ) . fire ( 81usize ) . ice_storm ( 81usize ) ? ; } enresult ( ( ) ) . ice_storm ( 85usize ) . fire ( 85usize ) ? ;";
   "enresult ( ( ) ) . fire ( 87usize ) ? ; Ok ( ( ) ) }"].
Definition it_special_meta_var_so_far_1 : item := let S := at_ "hooq-macros/tests/special/meta_var/so_far.rs" in
  (IFn [mk_attr false (S 93 1) (MList (mk_path false [mk_seg "hooq" [] (S 93 3); mk_seg "method" [] (S 93 9)]) Parenth [I S "fire" 93 16; G S Parenth [O S "$" 93 21; I S "expr" 93 22; O S "," 93 26; O S "$" 93 28; I S "line" 93 29] 93 20] (S 93 15))] [] (mk_sig "func2" (RetPath (mk_path false [mk_seg "Result" [O S "<" 94 21; G S Parenth [] 94 22; O S "," 94 24; G S Parenth [] 94 26; O S ">" 94 28] (S 94 15)])) [I S "fn" 94 1; I S "func2" 94 4; G S Parenth [] 94 9; O S "-" 94 12; O S ">" 94 13; I S "Result" 94 15; O S "<" 94 21; G S Parenth [] 94 22; O S "," 94 24; G S Parenth [] 94 26; O S ">" 94 28]) (S 94 30) [(SExpr (ETry [] (ECall [] (EPath [] (mk_path false [mk_seg "enresult" [] (S 95 5)])) (S 95 13) [(ETuple [] (S 95 14) [] [])] []) (S 95 17)) (Some (S 95 18))); (SExpr (EBlock [mk_attr false (S 97 5) (MList (mk_path false [mk_seg "hooq" [] (S 97 7); mk_seg "method" [] (S 97 13)]) Parenth [I S "ice_storm" 97 20; G S Parenth [O S "$" 97 30; I S "so_far" 97 31; O S "," 97 37; O S "$" 97 39; I S "line" 97 40] 97 29] (S 97 19))] [] (S 98 5) [(SExpr (ETry [] (ECall [] (EPath [] (mk_path false [mk_seg "enresult" [] (S 99 9)])) (S 99 17) [(ETuple [] (S 99 18) [] [])] []) (S 99 21)) (Some (S 99 22))); (SExpr (EBlock [mk_attr false (S 101 9) (MList (mk_path false [mk_seg "hooq" [] (S 101 11); mk_seg "method" [] (S 101 17)]) Parenth [I S "brain_damned" 101 24; G S Parenth [O S "$" 101 37; I S "so_far" 101 38; O S "," 101 44; O S "$" 101 46; I S "line" 101 47] 101 36] (S 101 23))] [] (S 102 9) [(SExpr (ETry [] (ECall [] (EPath [] (mk_path false [mk_seg "enresult" [] (S 103 13)])) (S 103 21) [(ETuple [] (S 103 22) [] [])] []) (S 103 25)) (Some (S 103 26))); (SExpr (EBlock [mk_attr false (S 105 13) (MList (mk_path false [mk_seg "hooq" [] (S 105 15); mk_seg "method" [] (S 105 21)]) Parenth [I S "jugemu" 105 28; G S Parenth [O S "$" 105 35; I S "so_far" 105 36; O S "," 105 42; O S "$" 105 44; I S "line" 105 45] 105 34] (S 105 27))] [] (S 106 13) [(SExpr (ETry [] (ECall [] (EPath [] (mk_path false [mk_seg "enresult" [] (S 107 17)])) (S 107 25) [(ETuple [] (S 107 26) [] [])] []) (S 107 29)) (Some (S 107 30))); (SExpr (ETry [mk_attr false (S 109 17) (MList (mk_path false [mk_seg "hooq" [] (S 109 19); mk_seg "method" [] (S 109 25)]) Parenth [I S "bayoeen" 109 32; G S Parenth [O S "$" 109 40; I S "so_far" 109 41; O S "," 109 47; O S "$" 109 49; I S "line" 109 50] 109 39] (S 109 31))] (ECall [] (EPath [] (mk_path false [mk_seg "enresult" [] (S 110 17)])) (S 110 25) [(ETuple [] (S 110 26) [] [])] []) (S 110 29)) (Some (S 110 30)))]) None); (SExpr (ETry [] (ECall [] (EPath [] (mk_path false [mk_seg "enresult" [] (S 113 13)])) (S 113 21) [(ETuple [] (S 113 22) [] [])] []) (S 113 25)) (Some (S 113 26)))]) None); (SExpr (ETry [] (ECall [] (EPath [] (mk_path false [mk_seg "enresult" [] (S 116 9)])) (S 116 17) [(ETuple [] (S 116 18) [] [])] []) (S 116 21)) (Some (S 116 22)))]) None); (SExpr (ETry [] (ECall [] (EPath [] (mk_path false [mk_seg "enresult" [] (S 119 5)])) (S 119 13) [(ETuple [] (S 119 14) [] [])] []) (S 119 17)) (Some (S 119 18))); (SExpr (ECall [] (EPath [] (mk_path false [mk_seg "Ok" [] (S 121 5)])) (S 121 7) [(ETuple [] (S 121 8) [] [])] []) None)]).
Definition args_special_meta_var_so_far_1 : list meta := let S := at_ "hooq-macros/tests/special/meta_var/so_far.rs" in [].
Definition rec_special_meta_var_so_far_1 : list string :=
  ["fn func2 ( ) - > Result < ( ) , ( ) > { fire ( enresult ( ( ) ) , 95usize ) ? ; { ice_storm ( fire ( enresult ( ( ) ) , 99usize ) , 99usize ) ? ; {";
   "brain_damned ( ice_storm ( fire ( enresult ( ( ) ) , 103usize ) , 103usize ) , 103usize ) ? ; { jugemu ( brain_damned ( ice_storm ( fire ( enresult (";
   "( ) ) , 107usize ) , 107usize ) , 107usize ) , 107usize ) ? ; bayoeen ( jugemu ( brain_damned ( ice_storm ( fire ( enresult ( ( ) ) , 110usize ) ,";
   "110usize ) , 110usize ) , 110usize ) , 110usize ) ? ; } brain_damned ( ice_storm ( fire ( enresult ( ( ) ) , 113usize ) , 113usize ) , 113usize ) ? ;";
   "} ice_storm ( fire ( enresult ( ( ) ) , 116usize ) , 116usize ) ? ; } fire ( enresult ( ( ) ) , 119usize ) ? ; Ok ( ( ) ) }"].
Definition it_special_meta_var_so_far_2 : item := let S := at_ "hooq-macros/tests/special/meta_var/so_far.rs" in
  (IFn [mk_attr false (S 125 1) (MList (mk_path false [mk_seg "hooq" [] (S 125 3); mk_seg "method" [] (S 125 9)]) Parenth [O S "." 125 16; I S "fire" 125 17; G S Parenth [O S "$" 125 22; I S "line" 125 23] 125 21] (S 125 15))] [] (mk_sig "func3" (RetPath (mk_path false [mk_seg "Result" [O S "<" 126 21; G S Parenth [] 126 22; O S "," 126 24; G S Parenth [] 126 26; O S ">" 126 28] (S 126 15)])) [I S "fn" 126 1; I S "func3" 126 4; G S Parenth [] 126 9; O S "-" 126 12; O S ">" 126 13; I S "Result" 126 15; O S "<" 126 21; G S Parenth [] 126 22; O S "," 126 24; G S Parenth [] 126 26; O S ">" 126 28]) (S 126 30) [(SExpr (ETry [] (ECall [] (EPath [] (mk_path false [mk_seg "enresult" [] (S 127 5)])) (S 127 13) [(ETuple [] (S 127 14) [] [])] []) (S 127 17)) (Some (S 127 18))); (SExpr (EBlock [mk_attr false (S 129 5) (MList (mk_path false [mk_seg "hooq" [] (S 129 7); mk_seg "method" [] (S 129 13)]) Parenth [I S "ice_storm" 129 20; G S Parenth [O S "$" 129 30; I S "expr" 129 31; O S "." 129 35; O S "$" 129 36; I S "so_far" 129 37; O S "," 129 43; O S "$" 129 45; I S "line" 129 46] 129 29] (S 129 19))] [] (S 130 5) [(SExpr (ETry [] (ECall [] (EPath [] (mk_path false [mk_seg "enresult" [] (S 131 9)])) (S 131 17) [(ETuple [] (S 131 18) [] [])] []) (S 131 21)) (Some (S 131 22))); (SExpr (EBlock [mk_attr false (S 133 9) (MList (mk_path false [mk_seg "hooq" [] (S 133 11); mk_seg "method" [] (S 133 17)]) Parenth [O S "$" 133 24; I S "so_far" 133 25; O S "." 133 31; I S "brain_damned" 133 32; G S Parenth [O S "$" 133 45; I S "line" 133 46] 133 44] (S 133 23))] [] (S 134 9) [(SExpr (ETry [] (ECall [] (EPath [] (mk_path false [mk_seg "enresult" [] (S 135 13)])) (S 135 21) [(ETuple [] (S 135 22) [] [])] []) (S 135 25)) (Some (S 135 26))); (SExpr (EBlock [mk_attr false (S 137 13) (MList (mk_path false [mk_seg "hooq" [] (S 137 15); mk_seg "method" [] (S 137 21)]) Parenth [O S "$" 137 28; I S "so_far" 137 29; O S "." 137 35; I S "jugemu" 137 36; G S Parenth [O S "$" 137 43; I S "line" 137 44] 137 42] (S 137 27))] [] (S 138 13) [(SExpr (ETry [] (ECall [] (EPath [] (mk_path false [mk_seg "enresult" [] (S 139 17)])) (S 139 25) [(ETuple [] (S 139 26) [] [])] []) (S 139 29)) (Some (S 139 30))); (SExpr (ETry [mk_attr false (S 141 17) (MList (mk_path false [mk_seg "hooq" [] (S 141 19); mk_seg "method" [] (S 141 25)]) Parenth [I S "bayoeen" 141 32; G S Parenth [O S "$" 141 40; I S "so_far" 141 41; O S "," 141 47; O S "$" 141 49; I S "line" 141 50] 141 39] (S 141 31))] (ECall [] (EPath [] (mk_path false [mk_seg "enresult" [] (S 142 17)])) (S 142 25) [(ETuple [] (S 142 26) [] [])] []) (S 142 29)) (Some (S 142 30)))]) None); (SExpr (ETry [] (ECall [] (EPath [] (mk_path false [mk_seg "enresult" [] (S 145 13)])) (S 145 21) [(ETuple [] (S 145 22) [] [])] []) (S 145 25)) (Some (S 145 26)))]) None)]) None); (SExpr (ECall [] (EPath [] (mk_path false [mk_seg "Ok" [] (S 149 5)])) (S 149 7) [(ETuple [] (S 149 8) [] [])] []) None)]).
Definition args_special_meta_var_so_far_2 : list meta := let S := at_ "hooq-macros/tests/special/meta_var/so_far.rs" in [].
Definition rec_special_meta_var_so_far_2 : list string :=
  ["fn func3 ( ) - > Result < ( ) , ( ) > { enresult ( ( ) ) . fire ( 127usize ) ? ; { ice_storm ( enresult ( ( ) ) . fire ( 131usize ) , 131usize ) ? ; {";
   "ice_storm ( enresult ( ( ) ) . fire ( 135usize ) , 135usize ) . brain_damned ( 135usize ) ? ; { ice_storm ( enresult ( ( ) ) . fire ( 139usize ) ,";
   "139usize ) . brain_damned ( 139usize ) . jugemu ( 139usize ) ? ; bayoeen ( ice_storm ( enresult ( ( ) ) . fire ( 142usize ) , 142usize ) .";
   "brain_damned ( 142usize ) . jugemu ( 142usize ) , 142usize ) ? ; } ice_storm ( enresult ( ( ) ) . fire ( 145usize ) , 145usize ) . brain_damned (";
   "145usize ) ? ; } } Ok ( ( ) ) }"].
(** func *)
Example recorded_special_meta_var_so_far_0 : expanded su_special_meta_var_so_far args_special_meta_var_so_far_0 it_special_meta_var_so_far_0 = words rec_special_meta_var_so_far_0.
Proof. vm_compute. reflexivity. Qed.
(** func2 *)
Example recorded_special_meta_var_so_far_1 : expanded su_special_meta_var_so_far args_special_meta_var_so_far_1 it_special_meta_var_so_far_1 = words rec_special_meta_var_so_far_1.
Proof. vm_compute. reflexivity. Qed.
(** func3 *)
Example recorded_special_meta_var_so_far_2 : expanded su_special_meta_var_so_far args_special_meta_var_so_far_2 it_special_meta_var_so_far_2 = words rec_special_meta_var_so_far_2.
Proof. vm_compute. reflexivity. Qed.
(** ** hooq-macros/tests/special/meta_var/source.rs *)
Definition doc_special_meta_var_source : list (string * ftable) := [].
Definition texts_special_meta_var_source : list (string * list tt) := let S := at_ "" in [].
Definition strs_special_meta_var_source : list (string * string) :=
  [("51 > magic . . . 53 | . diacute ( ) ? 54 | . diacute ( ) ? 55 | . diacute ( ) ? 56 | . diacute ( ) ? |", "  51>    magic
...
  53|        .diacute()?
  54|        .diacute()?
  55|        .diacute()?
  56|        .diacute()?
    |");
   ("51 > magic . . . 54 | . diacute ( ) ? 55 | . diacute ( ) ? 56 | . diacute ( ) ? 57 | . diacute ( ) ? |", "  51>    magic
...
  54|        .diacute()?
  55|        .diacute()?
  56|        .diacute()?
  57|        .diacute()?
    |");
   ("51 > magic 52 | . diacute ( ) ? 53 | . diacute ( ) ? 54 | . diacute ( ) ? 55 | . diacute ( ) ? |", "  51>    magic
  52|        .diacute()?
  53|        .diacute()?
  54|        .diacute()?
  55|        .diacute()?
    |");
   ("51 > magic 52 | . diacute ( ) ? 53 | . diacute ( ) ? 54 | . diacute ( ) ? |", "  51>    magic
  52|        .diacute()?
  53|        .diacute()?
  54|        .diacute()?
    |");
   ("51 > magic 52 | . diacute ( ) ? 53 | . diacute ( ) ? |", "  51>    magic
  52|        .diacute()?
  53|        .diacute()?
    |");
   ("51 > magic 52 | . diacute ( ) ? |", "  51>    magic
  52|        .diacute()?
    |");
   ("78 > magic . . . 80 | . diacute ( ) ? 81 | . diacute ( ) ? 82 | . diacute ( ) ? 83 | . diacute ( ) ? |", "  78>    magic
...
  80|        .diacute()?
  81|        .diacute()?
  82|        .diacute()?
  83|        .diacute()?
    |");
   ("78 > magic . . . 81 | . diacute ( ) ? 82 | . diacute ( ) ? 83 | . diacute ( ) ? 84 | . diacute ( ) ? |", "  78>    magic
...
  81|        .diacute()?
  82|        .diacute()?
  83|        .diacute()?
  84|        .diacute()?
    |");
   ("78 > magic 79 | . diacute ( ) ? 80 | . diacute ( ) ? 81 | . diacute ( ) ? 82 | . diacute ( ) ? |", "  78>    magic
  79|        .diacute()?
  80|        .diacute()?
  81|        .diacute()?
  82|        .diacute()?
    |");
   ("78 > magic 79 | . diacute ( ) ? 80 | . diacute ( ) ? 81 | . diacute ( ) ? |", "  78>    magic
  79|        .diacute()?
  80|        .diacute()?
  81|        .diacute()?
    |");
   ("78 > magic 79 | . diacute ( ) ? 80 | . diacute ( ) ? |", "  78>    magic
  79|        .diacute()?
  80|        .diacute()?
    |");
   ("78 > magic 79 | . diacute ( ) ? |", "  78>    magic
  79|        .diacute()?
    |");
   ("An error occurred . 12345678901234567890", "An error occurred. 12345678901234567890");
   ("Cast spell : { 0 }", "Cast spell: {0}
");
   ("[ { 0 } : { 1 } : { 2 } ] { 3 } source_str : { 4 }", "[{0}:{1}:{2}] {3}
source_str:
{4}
");
   ("[ { 0 } : { 1 } : { 2 } ] { 3 } source_str_oneline : { 4 }", "[{0}:{1}:{2}] {3}
source_str_oneline:
{4}
");
   ("[ { 0 } : { 1 } : { 2 } ] { 3 } source_str_short_oneline : { 4 }", "[{0}:{1}:{2}] {3}
source_str_short_oneline:
{4}
");
   ("beep", "beep
");
   ("magic . diacute ( ) ?", "magic .diacute()?");
   ("magic . diacute ( ) ? . diacute ( ) ?", "magic .diacute()? .diacute()?");
   ("magic . diacute ( ) ? . diacute ( ) ? . diacute ( ) ?", "magic .diacute()? .diacute()? .diacute()?");
   ("magic . diacute ( ) ? . diacute ( ) ? . diacute ( ) ? . diacute ( ) ?", "magic .diacute()? .diacute()? .diacute()? .diacute()?");
   ("magic . diacute ( ) ? . diacute ( ) ? . diacute ( ) ? . diacute ( ) ? . diacute ( ) ?", "magic .diacute()? .diacute()? .diacute()? .diacute()? .diacute()?");
   ("magic . diacute ( ) ? . diacute ( ) ? . diacute ( ) ? . diacute ( ) ? . diacute ( ) ? . diacute ( ) ?", "magic .diacute()? .diacute()? .diacute()? .diacute()? .diacute()? .diacute()?");
   ("magic . diacute ( ) ? . diacute ( ) ? . diacute ( ) ? . diacute ( ) ? . diacute ( ) ? . diacute ( ) ? . diacute ( ) ?", "magic .diacute()? .diacute()? .diacute()? .diacute()? .diacute()? .diacute()? .diacute()?");
   ("magic . diacute ( ) ? . diacute ( ) ? . diacute ( ) ? . diacute ( ) ? . diacute ( ) ? . diacute ( ) ? . diacute ( ) ? . diacute ( ) ?", "magic .diacute()? .diacute()? .diacute()? .diacute()? .diacute()? .diacute()? .diacute()? .diacute()?");
   ("magic . diacute ( ) ? . diacute ( ) ? . diacute ( ) ? . diacute ( ) ? . diacute ( ) ? . diacute ( ) ? . diacute ( ) ? . diacute ( ) ? . diacute ( ) ?", "magic .diacute()? .diacute()? .diacute()? .diacute()? .diacute()? .diacute()? .diacute()? .diacute()? .diacute()?");
   ("return Err ( ""An\serror\soccurred.\s12345678901234567890"" . to_string ( ) ) . inspect_err ( | _ | eprintln ! ( ""beep"" ) ) . inspect_err ( | _ | eprintln ! ( ""beep"" ) ) . inspect_err ( | _ | eprintln ! ( ""beep"" ) )", "return Err(""An error occurred. 12345678901234567890"".to_string()) .inspect_err(|_| eprintln!(""beep"")) .inspect_err(|_| eprintln!(""beep"")) .inspect_err(|_| eprintln!(""beep""))");
   ("source . rs", "source.rs")].
Definition ends_special_meta_var_source : list (N * N * (N * N * string)) :=
  [(3, 14, (8, 2, "")); (10, 12, (35, 2, "")); (11, 15, (11, 21, "")); (11, 46, (25, 6, "")); (12, 63, (17, 10, "")); (13, 23, (16, 15, "")); (13, 31, (16, 14, "")); (14, 17, (14, 59, """Cannot reinforce '{}' more than {} times""")); (19, 11, (24, 11, "")); (19, 17, (24, 10, "")); (27, 18, (27, 24, "")); (27, 35, (34, 6, "")); (28, 37, (28, 39, "")); (29, 46, (31, 10, "")); (30, 28, (30, 53, "")); (32, 24, (32, 35, "")); (37, 2, (37, 8, "")); (38, 2, (42, 5, "")); (38, 15, (42, 4, "")); (38, 28, (42, 3, "")); (38, 33, (42, 2, "")); (39, 14, (41, 58, "")); (39, 15, (41, 4, """[{}:{}:{}] {}
source_str:
{}""")); (41, 48, (41, 57, "")); (43, 17, (43, 19, "")); (43, 30, (43, 32, "")); (43, 42, (62, 2, "")); (44, 23, (49, 6, "")); (45, 15, (45, 22, """ファイヤー""")); (46, 29, (46, 33, """ファ""")); (52, 17, (52, 19, "")); (53, 17, (53, 19, "")); (54, 17, (54, 19, "")); (55, 17, (55, 19, "")); (56, 17, (56, 19, "")); (57, 17, (57, 19, "")); (59, 13, (59, 62, "")); (59, 14, (59, 30, """Cast spell: {}""")); (59, 59, (59, 61, "")); (61, 7, (61, 11, "")); (61, 8, (61, 10, "")); (64, 2, (64, 8, "")); (65, 2, (69, 5, "")); (65, 15, (69, 4, "")); (65, 28, (69, 3, "")); (65, 33, (69, 2, "")); (66, 14, (68, 58, "")); (66, 15, (68, 4, """[{}:{}:{}] {}
source_str_oneline:
{}""")); (68, 48, (68, 57, "")); (70, 23, (70, 25, "")); (70, 36, (70, 38, "")); (70, 48, (89, 2, "")); (71, 23, (76, 6, "")); (72, 15, (72, 22, """ファイヤー""")); (73, 29, (73, 33, """ファ""")); (79, 17, (79, 19, "")); (80, 17, (80, 19, "")); (81, 17, (81, 19, "")); (82, 17, (82, 19, "")); (83, 17, (83, 19, "")); (84, 17, (84, 19, "")); (86, 13, (86, 62, "")); (86, 14, (86, 30, """Cast spell: {}""")); (86, 59, (86, 61, "")); (88, 7, (88, 11, "")); (88, 8, (88, 10, "")); (91, 2, (91, 8, "")); (92, 2, (96, 5, "")); (92, 15, (96, 4, "")); (92, 28, (96, 3, "")); (92, 33, (96, 2, "")); (93, 14, (95, 93, "")); (93, 15, (95, 4, """[{}:{}:{}] {}
source_str_short_oneline:
{}""")); (95, 83, (95, 92, "")); (97, 31, (97, 33, "")); (97, 44, (97, 46, "")); (97, 56, (119, 2, "")); (98, 23, (103, 6, "")); (99, 15, (99, 22, """ファイヤー""")); (100, 29, (100, 33, """ファ""")); (106, 17, (106, 19, "")); (107, 17, (107, 19, "")); (108, 17, (108, 19, "")); (109, 17, (109, 19, "")); (110, 17, (110, 19, "")); (111, 17, (111, 19, "")); (112, 17, (112, 19, "")); (113, 17, (113, 19, "")); (114, 17, (114, 19, "")); (116, 13, (116, 62, "")); (116, 14, (116, 30, """Cast spell: {}""")); (116, 59, (116, 61, "")); (118, 7, (118, 11, "")); (118, 8, (118, 10, "")); (121, 2, (121, 8, "")); (122, 2, (126, 5, "")); (122, 15, (126, 4, "")); (122, 28, (126, 3, "")); (122, 33, (126, 2, "")); (123, 14, (125, 93, "")); (123, 15, (125, 4, """[{}:{}:{}] {}
source_str_short_oneline:
{}""")); (125, 83, (125, 92, "")); (127, 8, (127, 20, "")); (127, 31, (127, 33, "")); (127, 43, (136, 2, "")); (128, 13, (133, 6, "")); (129, 19, (129, 74, "")); (129, 20, (129, 61, """An error occurred. 12345678901234567890""")); (129, 71, (129, 73, "")); (130, 25, (130, 48, "")); (130, 39, (130, 47, "")); (130, 40, (130, 46, """beep""")); (131, 25, (131, 48, "")); (131, 39, (131, 47, "")); (131, 40, (131, 46, """beep""")); (132, 25, (132, 48, "")); (132, 39, (132, 47, "")); (132, 40, (132, 46, """beep""")); (135, 7, (135, 11, "")); (135, 8, (135, 10, "")); (138, 2, (138, 8, "")); (139, 8, (139, 10, "")); (139, 11, (142, 2, "")); (140, 18, (140, 20, "")); (140, 27, (140, 29, "")); (141, 24, (141, 26, "")); (141, 33, (141, 35, "")); (144, 2, (144, 8, "")); (145, 2, (145, 16, "")); (146, 16, (146, 18, "")); (146, 19, (148, 2, "")); (147, 32, (147, 34, "")); (147, 41, (147, 43, "")); (150, 2, (150, 8, "")); (151, 2, (151, 16, "")); (152, 16, (152, 18, "")); (152, 19, (154, 2, "")); (153, 9, (153, 15, "")); (153, 22, (153, 24, ""))].
Definition su_special_meta_var_source : setup := mk_setup (mk_features false false true false false "hooq") doc_special_meta_var_source texts_special_meta_var_source strs_special_meta_var_source [] ends_special_meta_var_source "source".
Definition it_special_meta_var_source_0 : item := let S := at_ "hooq-macros/tests/special/meta_var/source.rs" in
  (IFn [mk_attr false (S 38 1) (MList (mk_path false [mk_seg "hooq" [] (S 38 3); mk_seg "method" [] (S 38 9)]) Parenth [O S "." 38 16; I S "inspect_err" 38 17; G S Parenth [O S "|" 38 29; I S "e" 38 30; O S "|" 38 31; G S Brace [I S "eprintln" 39 5; O S "!" 39 13; G S Parenth [L S (LStr "[{}:{}:{}] {}
source_str:
{}") 39 15; O S "," 41 4; O S "$" 41 6; I S "file" 41 7; O S "," 41 11; O S "$" 41 13; I S "line" 41 14; O S "," 41 18; O S "$" 41 20; I S "column" 41 21; O S "," 41 27; I S "e" 41 29; O S "," 41 30; O S ":" 41 32; O S ":" 41 33; I S "hooq" 41 34; O S ":" 41 38; O S ":" 41 39; I S "summary" 41 40; O S "!" 41 47; G S Parenth [O S "$" 41 49; I S "source" 41 50] 41 48] 39 14; O S ";" 41 58] 38 33] 38 28] (S 38 15))] [] (mk_sig "test_expr_str" (RetPath (mk_path false [mk_seg "Result" [O S "<" 43 29; G S Parenth [] 43 30; O S "," 43 32; I S "String" 43 34; O S ">" 43 40] (S 43 23)])) [I S "fn" 43 1; I S "test_expr_str" 43 4; G S Parenth [] 43 17; O S "-" 43 20; O S ">" 43 21; I S "Result" 43 23; O S "<" 43 29; G S Parenth [] 43 30; O S "," 43 32; I S "String" 43 34; O S ">" 43 40]) (S 43 42) [(SLocalInit [] [I S "let" 44 5; I S "magic" 44 9; O S "=" 44 15] (EStruct [] (mk_path false [mk_seg "Magic" [] (S 44 17)]) (S 44 23) [(FieldV [] [I S "word" 45 9] [O S ":" 45 13] (ELit [] (LStr "ファイヤー") (S 45 15))); (FieldV [] [I S "reinforcement_word" 46 9] [O S ":" 46 27] (ELit [] (LStr "ファ") (S 46 29))); (FieldV [] [I S "reinforcement_count" 47 9] [O S ":" 47 28] (ELit [] (LOther "0") (S 47 30))); (FieldV [] [I S "max_reinforcement" 48 9] [O S ":" 48 26] (ELit [] (LOther "6") (S 48 28)))] [O S "," 45 22; O S "," 46 33; O S "," 47 31; O S "," 48 29] [] None) [] None [O S ";" 49 6]); (SLocalInit [] [I S "let" 51 5; I S "reinforced_magic" 51 9; O S "=" 51 26] (ETry [] (EMethodCall [] (ETry [] (EMethodCall [] (ETry [] (EMethodCall [] (ETry [] (EMethodCall [] (ETry [] (EMethodCall [] (ETry [] (EMethodCall [] (EPath [] (mk_path false [mk_seg "magic" [] (S 51 28)])) [O S "." 52 9; I S "diacute" 52 10] (S 52 17) [] []) (S 52 19)) [O S "." 53 9; I S "diacute" 53 10] (S 53 17) [] []) (S 53 19)) [O S "." 54 9; I S "diacute" 54 10] (S 54 17) [] []) (S 54 19)) [O S "." 55 9; I S "diacute" 55 10] (S 55 17) [] []) (S 55 19)) [O S "." 56 9; I S "diacute" 56 10] (S 56 17) [] []) (S 56 19)) [O S "." 57 9; I S "diacute" 57 10] (S 57 17) [] []) (S 57 19)) [] None [O S ";" 57 20]); (SMacro [] (Mac (mk_path false [mk_seg "println" [] (S 59 5)]) Parenth (S 59 13) [L S (LStr "Cast spell: {}") 59 14; O S "," 59 30; I S "reinforced_magic" 59 32; O S "." 59 48; I S "cast_spell" 59 49; G S Parenth [] 59 59] (Some [VExpr (ELit [] (LStr "Cast spell: {}") (S 59 14)) [O S "," 59 30]; VExpr (EMethodCall [] (EPath [] (mk_path false [mk_seg "reinforced_magic" [] (S 59 32)])) [O S "." 59 48; I S "cast_spell" 59 49] (S 59 59) [] []) []])) [O S ";" 59 62]); (SExpr (ECall [] (EPath [] (mk_path false [mk_seg "Ok" [] (S 61 5)])) (S 61 7) [(ETuple [] (S 61 8) [] [])] []) None)]).
Definition args_special_meta_var_source_0 : list meta := let S := at_ "hooq-macros/tests/special/meta_var/source.rs" in [].
Definition rec_special_meta_var_source_0 : list string :=
  ["fn test_expr_str ( ) - > Result < ( ) , String > { let magic = Magic { word : ""ファイヤー"" , reinforcement_word : ""ファ"" , reinforcement_count : 0 ,";
   "max_reinforcement : 6 } ; let reinforced_magic = magic . diacute ( ) . inspect_err ( | e | { { : : std : : io : : _eprint ( format_args ! (";
   """[{0}:{1}:{2}]\s{3}\nsource_str:\n{4}\n"" , ""source.rs"" , 52usize , 19usize , e , ""\s\s51>\s\s\s\smagic\n\s\s52|\s\s\s\s\s\s\s\s.diacute()?\n\s\s\s\s|""";
   ") ) ; } ; } ) ? . diacute ( ) . inspect_err ( | e | { { : : std : : io : : _eprint ( format_args ! ( ""[{0}:{1}:{2}]\s{3}\nsource_str:\n{4}\n"" ,";
   """source.rs"" , 53usize , 19usize , e , ""\s\s51>\s\s\s\smagic\n\s\s52|\s\s\s\s\s\s\s\s.diacute()?\n\s\s53|\s\s\s\s\s\s\s\s.diacute()?\n\s\s\s\s|"" ) ) ;";
   "} ; } ) ? . diacute ( ) . inspect_err ( | e | { { : : std : : io : : _eprint ( format_args ! ( ""[{0}:{1}:{2}]\s{3}\nsource_str:\n{4}\n"" , ""source.rs""";
   ", 54usize , 19usize , e ,";
   """\s\s51>\s\s\s\smagic\n\s\s52|\s\s\s\s\s\s\s\s.diacute()?\n\s\s53|\s\s\s\s\s\s\s\s.diacute()?\n\s\s54|\s\s\s\s\s\s\s\s.diacute()?\n\s\s\s\s|"" ) ) ; }";
   "; } ) ? . diacute ( ) . inspect_err ( | e | { { : : std : : io : : _eprint ( format_args ! ( ""[{0}:{1}:{2}]\s{3}\nsource_str:\n{4}\n"" , ""source.rs"" ,";
   "55usize , 19usize , e ,";
   """\s\s51>\s\s\s\smagic\n\s\s52|\s\s\s\s\s\s\s\s.diacute()?\n\s\s53|\s\s\s\s\s\s\s\s.diacute()?\n\s\s54|\s\s\s\s\s\s\s\s.diacute()?\n\s\s55|\s\s\s\s\s\s\s\s.diacute()?\n\s\s\s\s|""";
   ") ) ; } ; } ) ? . diacute ( ) . inspect_err ( | e | { { : : std : : io : : _eprint ( format_args ! ( ""[{0}:{1}:{2}]\s{3}\nsource_str:\n{4}\n"" ,";
   """source.rs"" , 56usize , 19usize , e ,";
   """\s\s51>\s\s\s\smagic\n...\n\s\s53|\s\s\s\s\s\s\s\s.diacute()?\n\s\s54|\s\s\s\s\s\s\s\s.diacute()?\n\s\s55|\s\s\s\s\s\s\s\s.diacute()?\n\s\s56|\s\s\s\s\s\s\s\s.diacute()?\n\s\s\s\s|""";
   ") ) ; } ; } ) ? . diacute ( ) . inspect_err ( | e | { { : : std : : io : : _eprint ( format_args ! ( ""[{0}:{1}:{2}]\s{3}\nsource_str:\n{4}\n"" ,";
   """source.rs"" , 57usize , 19usize , e ,";
   """\s\s51>\s\s\s\smagic\n...\n\s\s54|\s\s\s\s\s\s\s\s.diacute()?\n\s\s55|\s\s\s\s\s\s\s\s.diacute()?\n\s\s56|\s\s\s\s\s\s\s\s.diacute()?\n\s\s57|\s\s\s\s\s\s\s\s.diacute()?\n\s\s\s\s|""";
   ") ) ; } ; } ) ? ; { : : std : : io : : _print ( format_args ! ( ""Cast\sspell:\s{0}\n"" , reinforced_magic . cast_spell ( ) ) ) ; } ; Ok ( ( ) ) }"].
Definition it_special_meta_var_source_1 : item := let S := at_ "hooq-macros/tests/special/meta_var/source.rs" in
  (IFn [mk_attr false (S 65 1) (MList (mk_path false [mk_seg "hooq" [] (S 65 3); mk_seg "method" [] (S 65 9)]) Parenth [O S "." 65 16; I S "inspect_err" 65 17; G S Parenth [O S "|" 65 29; I S "e" 65 30; O S "|" 65 31; G S Brace [I S "eprintln" 66 5; O S "!" 66 13; G S Parenth [L S (LStr "[{}:{}:{}] {}
source_str_oneline:
{}") 66 15; O S "," 68 4; O S "$" 68 6; I S "file" 68 7; O S "," 68 11; O S "$" 68 13; I S "line" 68 14; O S "," 68 18; O S "$" 68 20; I S "column" 68 21; O S "," 68 27; I S "e" 68 29; O S "," 68 30; O S ":" 68 32; O S ":" 68 33; I S "hooq" 68 34; O S ":" 68 38; O S ":" 68 39; I S "summary" 68 40; O S "!" 68 47; G S Parenth [O S "$" 68 49; I S "source" 68 50] 68 48] 66 14; O S ";" 68 58] 65 33] 65 28] (S 65 15))] [] (mk_sig "test_expr_str_short" (RetPath (mk_path false [mk_seg "Result" [O S "<" 70 35; G S Parenth [] 70 36; O S "," 70 38; I S "String" 70 40; O S ">" 70 46] (S 70 29)])) [I S "fn" 70 1; I S "test_expr_str_short" 70 4; G S Parenth [] 70 23; O S "-" 70 26; O S ">" 70 27; I S "Result" 70 29; O S "<" 70 35; G S Parenth [] 70 36; O S "," 70 38; I S "String" 70 40; O S ">" 70 46]) (S 70 48) [(SLocalInit [] [I S "let" 71 5; I S "magic" 71 9; O S "=" 71 15] (EStruct [] (mk_path false [mk_seg "Magic" [] (S 71 17)]) (S 71 23) [(FieldV [] [I S "word" 72 9] [O S ":" 72 13] (ELit [] (LStr "ファイヤー") (S 72 15))); (FieldV [] [I S "reinforcement_word" 73 9] [O S ":" 73 27] (ELit [] (LStr "ファ") (S 73 29))); (FieldV [] [I S "reinforcement_count" 74 9] [O S ":" 74 28] (ELit [] (LOther "0") (S 74 30))); (FieldV [] [I S "max_reinforcement" 75 9] [O S ":" 75 26] (ELit [] (LOther "6") (S 75 28)))] [O S "," 72 22; O S "," 73 33; O S "," 74 31; O S "," 75 29] [] None) [] None [O S ";" 76 6]); (SLocalInit [] [I S "let" 78 5; I S "reinforced_magic" 78 9; O S "=" 78 26] (ETry [] (EMethodCall [] (ETry [] (EMethodCall [] (ETry [] (EMethodCall [] (ETry [] (EMethodCall [] (ETry [] (EMethodCall [] (ETry [] (EMethodCall [] (EPath [] (mk_path false [mk_seg "magic" [] (S 78 28)])) [O S "." 79 9; I S "diacute" 79 10] (S 79 17) [] []) (S 79 19)) [O S "." 80 9; I S "diacute" 80 10] (S 80 17) [] []) (S 80 19)) [O S "." 81 9; I S "diacute" 81 10] (S 81 17) [] []) (S 81 19)) [O S "." 82 9; I S "diacute" 82 10] (S 82 17) [] []) (S 82 19)) [O S "." 83 9; I S "diacute" 83 10] (S 83 17) [] []) (S 83 19)) [O S "." 84 9; I S "diacute" 84 10] (S 84 17) [] []) (S 84 19)) [] None [O S ";" 84 20]); (SMacro [] (Mac (mk_path false [mk_seg "println" [] (S 86 5)]) Parenth (S 86 13) [L S (LStr "Cast spell: {}") 86 14; O S "," 86 30; I S "reinforced_magic" 86 32; O S "." 86 48; I S "cast_spell" 86 49; G S Parenth [] 86 59] (Some [VExpr (ELit [] (LStr "Cast spell: {}") (S 86 14)) [O S "," 86 30]; VExpr (EMethodCall [] (EPath [] (mk_path false [mk_seg "reinforced_magic" [] (S 86 32)])) [O S "." 86 48; I S "cast_spell" 86 49] (S 86 59) [] []) []])) [O S ";" 86 62]); (SExpr (ECall [] (EPath [] (mk_path false [mk_seg "Ok" [] (S 88 5)])) (S 88 7) [(ETuple [] (S 88 8) [] [])] []) None)]).
Definition args_special_meta_var_source_1 : list meta := let S := at_ "hooq-macros/tests/special/meta_var/source.rs" in [].
Definition rec_special_meta_var_source_1 : list string :=
  ["fn test_expr_str_short ( ) - > Result < ( ) , String > { let magic = Magic { word : ""ファイヤー"" , reinforcement_word : ""ファ"" , reinforcement_count : 0 ,";
   "max_reinforcement : 6 } ; let reinforced_magic = magic . diacute ( ) . inspect_err ( | e | { { : : std : : io : : _eprint ( format_args ! (";
   """[{0}:{1}:{2}]\s{3}\nsource_str_oneline:\n{4}\n"" , ""source.rs"" , 79usize , 19usize , e ,";
   """\s\s78>\s\s\s\smagic\n\s\s79|\s\s\s\s\s\s\s\s.diacute()?\n\s\s\s\s|"" ) ) ; } ; } ) ? . diacute ( ) . inspect_err ( | e | { { : : std : : io : :";
   "_eprint ( format_args ! ( ""[{0}:{1}:{2}]\s{3}\nsource_str_oneline:\n{4}\n"" , ""source.rs"" , 80usize , 19usize , e ,";
   """\s\s78>\s\s\s\smagic\n\s\s79|\s\s\s\s\s\s\s\s.diacute()?\n\s\s80|\s\s\s\s\s\s\s\s.diacute()?\n\s\s\s\s|"" ) ) ; } ; } ) ? . diacute ( ) . inspect_err";
   "( | e | { { : : std : : io : : _eprint ( format_args ! ( ""[{0}:{1}:{2}]\s{3}\nsource_str_oneline:\n{4}\n"" , ""source.rs"" , 81usize , 19usize , e ,";
   """\s\s78>\s\s\s\smagic\n\s\s79|\s\s\s\s\s\s\s\s.diacute()?\n\s\s80|\s\s\s\s\s\s\s\s.diacute()?\n\s\s81|\s\s\s\s\s\s\s\s.diacute()?\n\s\s\s\s|"" ) ) ; }";
   "; } ) ? . diacute ( ) . inspect_err ( | e | { { : : std : : io : : _eprint ( format_args ! ( ""[{0}:{1}:{2}]\s{3}\nsource_str_oneline:\n{4}\n"" ,";
   """source.rs"" , 82usize , 19usize , e ,";
   """\s\s78>\s\s\s\smagic\n\s\s79|\s\s\s\s\s\s\s\s.diacute()?\n\s\s80|\s\s\s\s\s\s\s\s.diacute()?\n\s\s81|\s\s\s\s\s\s\s\s.diacute()?\n\s\s82|\s\s\s\s\s\s\s\s.diacute()?\n\s\s\s\s|""";
   ") ) ; } ; } ) ? . diacute ( ) . inspect_err ( | e | { { : : std : : io : : _eprint ( format_args ! ( ""[{0}:{1}:{2}]\s{3}\nsource_str_oneline:\n{4}\n""";
   ", ""source.rs"" , 83usize , 19usize , e ,";
   """\s\s78>\s\s\s\smagic\n...\n\s\s80|\s\s\s\s\s\s\s\s.diacute()?\n\s\s81|\s\s\s\s\s\s\s\s.diacute()?\n\s\s82|\s\s\s\s\s\s\s\s.diacute()?\n\s\s83|\s\s\s\s\s\s\s\s.diacute()?\n\s\s\s\s|""";
   ") ) ; } ; } ) ? . diacute ( ) . inspect_err ( | e | { { : : std : : io : : _eprint ( format_args ! ( ""[{0}:{1}:{2}]\s{3}\nsource_str_oneline:\n{4}\n""";
   ", ""source.rs"" , 84usize , 19usize , e ,";
   """\s\s78>\s\s\s\smagic\n...\n\s\s81|\s\s\s\s\s\s\s\s.diacute()?\n\s\s82|\s\s\s\s\s\s\s\s.diacute()?\n\s\s83|\s\s\s\s\s\s\s\s.diacute()?\n\s\s84|\s\s\s\s\s\s\s\s.diacute()?\n\s\s\s\s|""";
   ") ) ; } ; } ) ? ; { : : std : : io : : _print ( format_args ! ( ""Cast\sspell:\s{0}\n"" , reinforced_magic . cast_spell ( ) ) ) ; } ; Ok ( ( ) ) }"].
Definition it_special_meta_var_source_2 : item := let S := at_ "hooq-macros/tests/special/meta_var/source.rs" in
  (IFn [mk_attr false (S 92 1) (MList (mk_path false [mk_seg "hooq" [] (S 92 3); mk_seg "method" [] (S 92 9)]) Parenth [O S "." 92 16; I S "inspect_err" 92 17; G S Parenth [O S "|" 92 29; I S "e" 92 30; O S "|" 92 31; G S Brace [I S "eprintln" 93 5; O S "!" 93 13; G S Parenth [L S (LStr "[{}:{}:{}] {}
source_str_short_oneline:
{}") 93 15; O S "," 95 4; O S "$" 95 6; I S "file" 95 7; O S "," 95 11; O S "$" 95 13; I S "line" 95 14; O S "," 95 18; O S "$" 95 20; I S "column" 95 21; O S "," 95 27; I S "e" 95 29; O S "," 95 30; O S ":" 95 32; O S ":" 95 33; I S "hooq" 95 34; O S ":" 95 38; O S ":" 95 39; I S "source_excerpt_helpers" 95 40; O S ":" 95 62; O S ":" 95 63; I S "one_line_stringify" 95 64; O S "!" 95 82; G S Parenth [O S "$" 95 84; I S "source" 95 85] 95 83] 93 14; O S ";" 95 93] 92 33] 92 28] (S 92 15))] [] (mk_sig "test_expr_str_short_oneline" (RetPath (mk_path false [mk_seg "Result" [O S "<" 97 43; G S Parenth [] 97 44; O S "," 97 46; I S "String" 97 48; O S ">" 97 54] (S 97 37)])) [I S "fn" 97 1; I S "test_expr_str_short_oneline" 97 4; G S Parenth [] 97 31; O S "-" 97 34; O S ">" 97 35; I S "Result" 97 37; O S "<" 97 43; G S Parenth [] 97 44; O S "," 97 46; I S "String" 97 48; O S ">" 97 54]) (S 97 56) [(SLocalInit [] [I S "let" 98 5; I S "magic" 98 9; O S "=" 98 15] (EStruct [] (mk_path false [mk_seg "Magic" [] (S 98 17)]) (S 98 23) [(FieldV [] [I S "word" 99 9] [O S ":" 99 13] (ELit [] (LStr "ファイヤー") (S 99 15))); (FieldV [] [I S "reinforcement_word" 100 9] [O S ":" 100 27] (ELit [] (LStr "ファ") (S 100 29))); (FieldV [] [I S "reinforcement_count" 101 9] [O S ":" 101 28] (ELit [] (LOther "0") (S 101 30))); (FieldV [] [I S "max_reinforcement" 102 9] [O S ":" 102 26] (ELit [] (LOther "6") (S 102 28)))] [O S "," 99 22; O S "," 100 33; O S "," 101 31; O S "," 102 29] [] None) [] None [O S ";" 103 6]); (SLocalInit [] [I S "let" 105 5; I S "reinforced_magic" 105 9; O S "=" 105 26] (ETry [] (EMethodCall [] (ETry [] (EMethodCall [] (ETry [] (EMethodCall [] (ETry [] (EMethodCall [] (ETry [] (EMethodCall [] (ETry [] (EMethodCall [] (ETry [] (EMethodCall [] (ETry [] (EMethodCall [] (ETry [] (EMethodCall [] (EPath [] (mk_path false [mk_seg "magic" [] (S 105 28)])) [O S "." 106 9; I S "diacute" 106 10] (S 106 17) [] []) (S 106 19)) [O S "." 107 9; I S "diacute" 107 10] (S 107 17) [] []) (S 107 19)) [O S "." 108 9; I S "diacute" 108 10] (S 108 17) [] []) (S 108 19)) [O S "." 109 9; I S "diacute" 109 10] (S 109 17) [] []) (S 109 19)) [O S "." 110 9; I S "diacute" 110 10] (S 110 17) [] []) (S 110 19)) [O S "." 111 9; I S "diacute" 111 10] (S 111 17) [] []) (S 111 19)) [O S "." 112 9; I S "diacute" 112 10] (S 112 17) [] []) (S 112 19)) [O S "." 113 9; I S "diacute" 113 10] (S 113 17) [] []) (S 113 19)) [O S "." 114 9; I S "diacute" 114 10] (S 114 17) [] []) (S 114 19)) [] None [O S ";" 114 20]); (SMacro [] (Mac (mk_path false [mk_seg "println" [] (S 116 5)]) Parenth (S 116 13) [L S (LStr "Cast spell: {}") 116 14; O S "," 116 30; I S "reinforced_magic" 116 32; O S "." 116 48; I S "cast_spell" 116 49; G S Parenth [] 116 59] (Some [VExpr (ELit [] (LStr "Cast spell: {}") (S 116 14)) [O S "," 116 30]; VExpr (EMethodCall [] (EPath [] (mk_path false [mk_seg "reinforced_magic" [] (S 116 32)])) [O S "." 116 48; I S "cast_spell" 116 49] (S 116 59) [] []) []])) [O S ";" 116 62]); (SExpr (ECall [] (EPath [] (mk_path false [mk_seg "Ok" [] (S 118 5)])) (S 118 7) [(ETuple [] (S 118 8) [] [])] []) None)]).
Definition args_special_meta_var_source_2 : list meta := let S := at_ "hooq-macros/tests/special/meta_var/source.rs" in [].
Definition rec_special_meta_var_source_2 : list string :=
  ["fn test_expr_str_short_oneline ( ) - > Result < ( ) , String > { let magic = Magic { word : ""ファイヤー"" , reinforcement_word : ""ファ"" , reinforcement_count";
   ": 0 , max_reinforcement : 6 } ; let reinforced_magic = magic . diacute ( ) . inspect_err ( | e | { { : : std : : io : : _eprint ( format_args ! (";
   """[{0}:{1}:{2}]\s{3}\nsource_str_short_oneline:\n{4}\n"" , ""source.rs"" , 106usize , 19usize , e , ""magic\s.diacute()?"" ) ) ; } ; } ) ? . diacute ( ) .";
   "inspect_err ( | e | { { : : std : : io : : _eprint ( format_args ! ( ""[{0}:{1}:{2}]\s{3}\nsource_str_short_oneline:\n{4}\n"" , ""source.rs"" , 107usize ,";
   "19usize , e , ""magic\s.diacute()?\s.diacute()?"" ) ) ; } ; } ) ? . diacute ( ) . inspect_err ( | e | { { : : std : : io : : _eprint ( format_args ! (";
   """[{0}:{1}:{2}]\s{3}\nsource_str_short_oneline:\n{4}\n"" , ""source.rs"" , 108usize , 19usize , e , ""magic\s.diacute()?\s.diacute()?\s.diacute()?"" ) ) ; }";
   "; } ) ? . diacute ( ) . inspect_err ( | e | { { : : std : : io : : _eprint ( format_args ! ( ""[{0}:{1}:{2}]\s{3}\nsource_str_short_oneline:\n{4}\n"" ,";
   """source.rs"" , 109usize , 19usize , e , ""magic\s.diacute()?\s.diacute()?\s.diacute()?\s.diacute()?"" ) ) ; } ; } ) ? . diacute ( ) . inspect_err ( | e |";
   "{ { : : std : : io : : _eprint ( format_args ! ( ""[{0}:{1}:{2}]\s{3}\nsource_str_short_oneline:\n{4}\n"" , ""source.rs"" , 110usize , 19usize , e ,";
   """magic\s.diacute()?\s.diacute()?\s.diacute()?\s.diacute()?\s.diacute()?"" ) ) ; } ; } ) ? . diacute ( ) . inspect_err ( | e | { { : : std : : io : :";
   "_eprint ( format_args ! ( ""[{0}:{1}:{2}]\s{3}\nsource_str_short_oneline:\n{4}\n"" , ""source.rs"" , 111usize , 19usize , e ,";
   """magic\s.diacute()?\s.diacute()?\s.diacute()?\s.diacute()?\s.diacute()?\s.diacute()?"" ) ) ; } ; } ) ? . diacute ( ) . inspect_err ( | e | { { : : std";
   ": : io : : _eprint ( format_args ! ( ""[{0}:{1}:{2}]\s{3}\nsource_str_short_oneline:\n{4}\n"" , ""source.rs"" , 112usize , 19usize , e ,";
   """magic\s.diacute()?\s.diacute()?\s.diacute()?\s.diacute()?\s.diacute()?\s.diacute()?\s.diacute()?"" ) ) ; } ; } ) ? . diacute ( ) . inspect_err ( | e |";
   "{ { : : std : : io : : _eprint ( format_args ! ( ""[{0}:{1}:{2}]\s{3}\nsource_str_short_oneline:\n{4}\n"" , ""source.rs"" , 113usize , 19usize , e ,";
   """magic\s.diacute()?\s.diacute()?\s.diacute()?\s.diacute()?\s.diacute()?\s.diacute()?\s.diacute()?\s.diacute()?"" ) ) ; } ; } ) ? . diacute ( ) .";
   "inspect_err ( | e | { { : : std : : io : : _eprint ( format_args ! ( ""[{0}:{1}:{2}]\s{3}\nsource_str_short_oneline:\n{4}\n"" , ""source.rs"" , 114usize ,";
   "19usize , e , ""magic\s.diacute()?\s.diacute()?\s.diacute()?\s.diacute()?\s.diacute()?\s.diacute()?\s.diacute()?\s.diacute()?\s.diacute()?"" ) ) ; } ; }";
   ") ? ; { : : std : : io : : _print ( format_args ! ( ""Cast\sspell:\s{0}\n"" , reinforced_magic . cast_spell ( ) ) ) ; } ; Ok ( ( ) ) }"].
Definition it_special_meta_var_source_3 : item := let S := at_ "hooq-macros/tests/special/meta_var/source.rs" in
  (IFn [mk_attr false (S 122 1) (MList (mk_path false [mk_seg "hooq" [] (S 122 3); mk_seg "method" [] (S 122 9)]) Parenth [O S "." 122 16; I S "inspect_err" 122 17; G S Parenth [O S "|" 122 29; I S "e" 122 30; O S "|" 122 31; G S Brace [I S "eprintln" 123 5; O S "!" 123 13; G S Parenth [L S (LStr "[{}:{}:{}] {}
source_str_short_oneline:
{}") 123 15; O S "," 125 4; O S "$" 125 6; I S "file" 125 7; O S "," 125 11; O S "$" 125 13; I S "line" 125 14; O S "," 125 18; O S "$" 125 20; I S "column" 125 21; O S "," 125 27; I S "e" 125 29; O S "," 125 30; O S ":" 125 32; O S ":" 125 33; I S "hooq" 125 34; O S ":" 125 38; O S ":" 125 39; I S "source_excerpt_helpers" 125 40; O S ":" 125 62; O S ":" 125 63; I S "one_line_stringify" 125 64; O S "!" 125 82; G S Parenth [O S "$" 125 84; I S "source" 125 85] 125 83] 123 14; O S ";" 125 93] 122 33] 122 28] (S 122 15))] [] (mk_sig "func" (RetPath (mk_path false [mk_seg "Result" [O S "<" 127 30; G S Parenth [] 127 31; O S "," 127 33; I S "String" 127 35; O S ">" 127 41] (S 127 24)])) [I S "fn" 127 1; I S "func" 127 4; G S Parenth [I S "flag" 127 9; O S ":" 127 13; I S "bool" 127 15] 127 8; O S "-" 127 21; O S ">" 127 22; I S "Result" 127 24; O S "<" 127 30; G S Parenth [] 127 31; O S "," 127 33; I S "String" 127 35; O S ">" 127 41]) (S 127 43) [(SExpr (EIf [] [I S "if" 128 5] (EPath [] (mk_path false [mk_seg "flag" [] (S 128 8)])) (S 128 13) [(SExpr (EReturn [] (S 129 9) (Some (EMethodCall [] (EMethodCall [] (EMethodCall [] (ECall [] (EPath [] (mk_path false [mk_seg "Err" [] (S 129 16)])) (S 129 19) [(EMethodCall [] (ELit [] (LStr "An error occurred. 12345678901234567890") (S 129 20)) [O S "." 129 61; I S "to_string" 129 62] (S 129 71) [] [])] []) [O S "." 130 13; I S "inspect_err" 130 14] (S 130 25) [(EClosure [] [O S "|" 130 26; I S "_" 130 27; O S "|" 130 28] RetNone (EMacro [] (Mac (mk_path false [mk_seg "eprintln" [] (S 130 30)]) Parenth (S 130 39) [L S (LStr "beep") 130 40] (Some [VExpr (ELit [] (LStr "beep") (S 130 40)) []]))))] []) [O S "." 131 13; I S "inspect_err" 131 14] (S 131 25) [(EClosure [] [O S "|" 131 26; I S "_" 131 27; O S "|" 131 28] RetNone (EMacro [] (Mac (mk_path false [mk_seg "eprintln" [] (S 131 30)]) Parenth (S 131 39) [L S (LStr "beep") 131 40] (Some [VExpr (ELit [] (LStr "beep") (S 131 40)) []]))))] []) [O S "." 132 13; I S "inspect_err" 132 14] (S 132 25) [(EClosure [] [O S "|" 132 26; I S "_" 132 27; O S "|" 132 28] RetNone (EMacro [] (Mac (mk_path false [mk_seg "eprintln" [] (S 132 30)]) Parenth (S 132 39) [L S (LStr "beep") 132 40] (Some [VExpr (ELit [] (LStr "beep") (S 132 40)) []]))))] []))) (Some (S 132 48)))] [] None) None); (SExpr (ECall [] (EPath [] (mk_path false [mk_seg "Ok" [] (S 135 5)])) (S 135 7) [(ETuple [] (S 135 8) [] [])] []) None)]).
Definition args_special_meta_var_source_3 : list meta := let S := at_ "hooq-macros/tests/special/meta_var/source.rs" in [].
Definition rec_special_meta_var_source_3 : list string :=
  ["fn func ( flag : bool ) - > Result < ( ) , String > { if flag { return Err ( ""An\serror\soccurred.\s12345678901234567890"" . to_string ( ) ) .";
   "inspect_err ( | _ | { : : std : : io : : _eprint ( format_args ! ( ""beep\n"" ) ) ; } ) . inspect_err ( | _ | { : : std : : io : : _eprint ( format_args";
   "! ( ""beep\n"" ) ) ; } ) . inspect_err ( | _ | { : : std : : io : : _eprint ( format_args ! ( ""beep\n"" ) ) ; } ) . inspect_err ( | e | { { : : std : :";
   "io : : _eprint ( format_args ! ( ""[{0}:{1}:{2}]\s{3}\nsource_str_short_oneline:\n{4}\n"" , ""source.rs"" , 129usize , 9usize , e ,";
   """return\sErr(\""An\serror\soccurred.\s12345678901234567890\"".to_string())\s.inspect_err(|_|\seprintln!(\""beep\""))\s.inspect_err(|_|\seprintln!(\""beep\""))\s.inspect_err(|_|\seprintln!(\""beep\""))""";
   ") ) ; } ; } ) ; } Ok ( ( ) ) }"].
(** test_expr_str *)
Example recorded_special_meta_var_source_0 : expanded su_special_meta_var_source args_special_meta_var_source_0 it_special_meta_var_source_0 = words rec_special_meta_var_source_0.
Proof. vm_compute. reflexivity. Qed.
(** test_expr_str_short *)
Example recorded_special_meta_var_source_1 : expanded su_special_meta_var_source args_special_meta_var_source_1 it_special_meta_var_source_1 = words rec_special_meta_var_source_1.
Proof. vm_compute. reflexivity. Qed.
(** test_expr_str_short_oneline *)
Example recorded_special_meta_var_source_2 : expanded su_special_meta_var_source args_special_meta_var_source_2 it_special_meta_var_source_2 = words rec_special_meta_var_source_2.
Proof. vm_compute. reflexivity. Qed.
(** func *)
Example recorded_special_meta_var_source_3 : expanded su_special_meta_var_source args_special_meta_var_source_3 it_special_meta_var_source_3 = words rec_special_meta_var_source_3.
Proof. vm_compute. reflexivity. Qed.
