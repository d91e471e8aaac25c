(** Recorded expansions of the real macro: the programs of the book.  Generated by conformance/gen.py.  *)
From Coq Require Import String Ascii Bool Arith NArith List.
From Verif Require Import Base Tokens Method Paths Context Flavor Attrs Syntax Conformance.
Import ListNotations.
Open Scope string_scope.
Open Scope list_scope.
Open Scope N_scope.

(** ** mdbook-source-code/all_attr/src/main.rs *)
Definition doc_all_attr_main : list (string * ftable) := [].
Definition texts_all_attr_main : list (string * list tt) := let S := at_ "" in [].
Definition strs_all_attr_main : list (string * string) :=
  [("error !", "error!")].
Definition ends_all_attr_main : list (N * N * (N * N * string)) :=
  [(3, 9, (5, 2, "")); (4, 21, (4, 23, "")); (7, 15, (7, 23, "")); (7, 45, (9, 2, "")); (8, 7, (8, 12, "")); (11, 2, (11, 48, "")); (11, 7, (11, 47, "")); (11, 17, (11, 23, """hook""")); (11, 34, (11, 46, "")); (12, 2, (12, 57, "")); (12, 15, (12, 56, "")); (12, 28, (12, 55, "")); (12, 33, (12, 54, "")); (12, 43, (12, 51, """error!""")); (13, 2, (13, 50, "")); (13, 21, (13, 49, "")); (13, 22, (13, 25, """?""")); (13, 27, (13, 35, """return""")); (13, 37, (13, 48, """tail_expr""")); (14, 2, (14, 33, "")); (14, 25, (14, 32, "")); (14, 26, (14, 31, """Err""")); (15, 2, (15, 39, "")); (15, 32, (15, 38, "")); (15, 33, (15, 37, """Ok""")); (16, 2, (16, 32, "")); (16, 21, (16, 31, "")); (16, 22, (16, 30, """Result""")); (17, 2, (17, 30, "")); (17, 23, (17, 29, "")); (18, 2, (18, 36, "")); (18, 16, (18, 35, "")); (18, 23, (18, 34, """xxx_value""")); (19, 8, (19, 10, "")); (19, 21, (19, 23, "")); (19, 53, (37, 2, "")); (20, 13, (20, 17, "")); (20, 14, (20, 16, "")); (22, 6, (22, 22, "")); (23, 16, (23, 23, "")); (23, 25, (25, 6, "")); (24, 17, (24, 21, "")); (24, 18, (24, 20, "")); (27, 6, (27, 18, "")); (28, 16, (28, 23, "")); (28, 25, (31, 6, "")); (30, 17, (30, 21, "")); (30, 18, (30, 20, "")); (33, 6, (33, 57, "")); (33, 19, (33, 56, "")); (33, 32, (33, 55, "")); (33, 37, (33, 54, "")); (34, 13, (34, 17, "")); (34, 14, (34, 16, "")); (36, 7, (36, 11, "")); (36, 8, (36, 10, ""))].
Definition su_all_attr_main : setup := mk_setup (mk_features false false false false false "hooq") doc_all_attr_main texts_all_attr_main strs_all_attr_main [] ends_all_attr_main "main".
Definition it_all_attr_main_0 : item := let S := at_ "mdbook-source-code/all_attr/src/main.rs" in
  (IFn [mk_attr false (S 12 1) (MList (mk_path false [mk_seg "hooq" [] (S 12 3); mk_seg "method" [] (S 12 9)]) Parenth [O S "." 12 16; I S "inspect_err" 12 17; G S Parenth [O S "|" 12 29; I S "_" 12 30; O S "|" 12 31; G S Brace [I S "let" 12 35; I S "_" 12 39; O S "=" 12 41; L S (LStr "error!") 12 43; O S ";" 12 51] 12 33] 12 28] (S 12 15)); mk_attr false (S 13 1) (MList (mk_path false [mk_seg "hooq" [] (S 13 3); mk_seg "hook_targets" [] (S 13 9)]) Parenth [L S (LStr "?") 13 22; O S "," 13 25; L S (LStr "return") 13 27; O S "," 13 35; L S (LStr "tail_expr") 13 37] (S 13 21)); mk_attr false (S 14 1) (MList (mk_path false [mk_seg "hooq" [] (S 14 3); mk_seg "tail_expr_idents" [] (S 14 9)]) Parenth [L S (LStr "Err") 14 26] (S 14 25)); mk_attr false (S 15 1) (MList (mk_path false [mk_seg "hooq" [] (S 15 3); mk_seg "ignore_tail_expr_idents" [] (S 15 9)]) Parenth [L S (LStr "Ok") 15 33] (S 15 32)); mk_attr false (S 16 1) (MList (mk_path false [mk_seg "hooq" [] (S 16 3); mk_seg "result_types" [] (S 16 9)]) Parenth [L S (LStr "Result") 16 22] (S 16 21)); mk_attr false (S 17 1) (MList (mk_path false [mk_seg "hooq" [] (S 17 3); mk_seg "hook_in_macros" [] (S 17 9)]) Parenth [I S "true" 17 24] (S 17 23)); mk_attr false (S 18 1) (MList (mk_path false [mk_seg "hooq" [] (S 18 3); mk_seg "binding" [] (S 18 9)]) Parenth [I S "xxx" 18 17; O S "=" 18 21; L S (LStr "xxx_value") 18 23] (S 18 16))] [] (mk_sig "main" (RetPath (mk_path false [mk_seg "Result" [O S "<" 19 20; G S Parenth [] 19 21; O S "," 19 23; I S "Box" 19 25; O S "<" 19 28; I S "dyn" 19 29; I S "std" 19 33; O S ":" 19 36; O S ":" 19 37; I S "error" 19 38; O S ":" 19 43; O S ":" 19 44; I S "Error" 19 45; O S ">" 19 50; O S ">" 19 51] (S 19 14)])) [I S "fn" 19 1; I S "main" 19 4; G S Parenth [] 19 8; O S "-" 19 11; O S ">" 19 12; I S "Result" 19 14; O S "<" 19 20; G S Parenth [] 19 21; O S "," 19 23; I S "Box" 19 25; O S "<" 19 28; I S "dyn" 19 29; I S "std" 19 33; O S ":" 19 36; O S ":" 19 37; I S "error" 19 38; O S ":" 19 43; O S ":" 19 44; I S "Error" 19 45; O S ">" 19 50; O S ">" 19 51]) (S 19 53) [(SExpr (ETry [] (ECall [] (EPath [] (mk_path false [mk_seg "fallible" [] (S 20 5)])) (S 20 13) [(ETuple [] (S 20 14) [] [])] []) (S 20 17)) (Some (S 20 18))); (SExpr (EIf [mk_attr false (S 22 5) (MPath (mk_path false [mk_seg "hooq" [] (S 22 7); mk_seg "skip_all" [] (S 22 13)]))] [I S "if" 23 5] (ETry [] (ECall [] (EPath [] (mk_path false [mk_seg "fallible" [] (S 23 8)])) (S 23 16) [(EPath [] (mk_path false [mk_seg "false" [] (S 23 17)]))] []) (S 23 23)) (S 23 25) [(SExpr (ETry [] (ECall [] (EPath [] (mk_path false [mk_seg "fallible" [] (S 24 9)])) (S 24 17) [(ETuple [] (S 24 18) [] [])] []) (S 24 21)) (Some (S 24 22)))] [] None) None); (SExpr (EIf [mk_attr false (S 27 5) (MPath (mk_path false [mk_seg "hooq" [] (S 27 7); mk_seg "skip" [] (S 27 13)]))] [I S "if" 28 5] (ETry [] (ECall [] (EPath [] (mk_path false [mk_seg "fallible" [] (S 28 8)])) (S 28 16) [(EPath [] (mk_path false [mk_seg "false" [] (S 28 17)]))] []) (S 28 23)) (S 28 25) [(SExpr (ETry [] (ECall [] (EPath [] (mk_path false [mk_seg "fallible" [] (S 30 9)])) (S 30 17) [(ETuple [] (S 30 18) [] [])] []) (S 30 21)) (Some (S 30 22)))] [] None) None); (SExpr (ETry [mk_attr false (S 33 5) (MList (mk_path false [mk_seg "hooq" [] (S 33 7); mk_seg "method" [] (S 33 13)]) Parenth [O S "." 33 20; I S "inspect_err" 33 21; G S Parenth [O S "|" 33 33; I S "_" 33 34; O S "|" 33 35; G S Brace [I S "let" 33 39; I S "_" 33 43; O S "=" 33 45; O S "$" 33 47; I S "xxx" 33 48; O S ";" 33 51] 33 37] 33 32] (S 33 19))] (ECall [] (EPath [] (mk_path false [mk_seg "fallible" [] (S 34 5)])) (S 34 13) [(ETuple [] (S 34 14) [] [])] []) (S 34 17)) (Some (S 34 18))); (SExpr (ECall [] (EPath [] (mk_path false [mk_seg "Ok" [] (S 36 5)])) (S 36 7) [(ETuple [] (S 36 8) [] [])] []) None)]).
Definition args_all_attr_main_0 : list meta := let S := at_ "mdbook-source-code/all_attr/src/main.rs" in [(MNameValue (mk_path false [mk_seg "flavor" [] (S 11 8)]) (VStr "hook" (S 11 17))); (MList (mk_path false [mk_seg "trait_use" [] (S 11 25)]) Parenth [I S "sub" 11 35; O S ":" 11 38; O S ":" 11 39; I S "Trait" 11 40] (S 11 34))].
Definition rec_all_attr_main_0 : list string :=
  ["# [ allow ( unused ) ] use sub : : Trait as _ ; fn main ( ) - > Result < ( ) , Box < dyn std : : error : : Error > > { fallible ( ( ) ) . inspect_err";
   "( | _ | { let _ = ""error!"" ; } ) ? ; if fallible ( false ) ? { fallible ( ( ) ) ? ; } if fallible ( false ) ? { fallible ( ( ) ) . inspect_err ( | _ |";
   "{ let _ = ""error!"" ; } ) ? ; } fallible ( ( ) ) . inspect_err ( | _ | { let _ = ""xxx_value"" ; } ) ? ; Ok ( ( ) ) }"].
(** main *)
Example recorded_all_attr_main_0 : expanded su_all_attr_main args_all_attr_main_0 it_all_attr_main_0 = words rec_all_attr_main_0.
Proof. vm_compute. reflexivity. Qed.
(** ** mdbook-source-code/attribute-binding/src/main.rs *)
Definition doc_attribute_binding_main : list (string * ftable) := [].
Definition texts_attribute_binding_main : list (string * list tt) := let S := at_ "" in [].
Definition strs_attribute_binding_main : list (string * string) :=
  [].
Definition ends_attribute_binding_main : list (N * N * (N * N * string)) :=
  [(3, 15, (3, 23, "")); (3, 45, (5, 2, "")); (4, 7, (4, 12, "")); (7, 2, (7, 8, "")); (8, 2, (8, 53, "")); (8, 15, (8, 52, "")); (8, 28, (8, 51, "")); (8, 33, (8, 50, "")); (9, 2, (9, 18, "")); (10, 8, (10, 10, "")); (10, 21, (10, 23, "")); (10, 53, (26, 2, "")); (11, 13, (11, 17, "")); (11, 14, (11, 16, "")); (13, 6, (13, 39, "")); (13, 20, (13, 38, "")); (13, 27, (13, 37, """in block""")); (14, 5, (21, 6, "")); (15, 17, (15, 21, "")); (15, 18, (15, 20, "")); (17, 10, (17, 31, "")); (17, 20, (17, 30, "")); (18, 17, (18, 21, "")); (18, 18, (18, 20, "")); (20, 17, (20, 21, "")); (20, 18, (20, 20, "")); (23, 13, (23, 17, "")); (23, 14, (23, 16, "")); (25, 7, (25, 11, "")); (25, 8, (25, 10, ""))].
Definition su_attribute_binding_main : setup := mk_setup (mk_features false false false false false "hooq") doc_attribute_binding_main texts_attribute_binding_main strs_attribute_binding_main [] ends_attribute_binding_main "main".
Definition it_attribute_binding_main_0 : item := let S := at_ "mdbook-source-code/attribute-binding/src/main.rs" in
  (IFn [mk_attr false (S 8 1) (MList (mk_path false [mk_seg "hooq" [] (S 8 3); mk_seg "method" [] (S 8 9)]) Parenth [O S "." 8 16; I S "inspect_err" 8 17; G S Parenth [O S "|" 8 29; I S "_" 8 30; O S "|" 8 31; G S Brace [I S "let" 8 35; I S "_" 8 39; O S "=" 8 41; O S "$" 8 43; I S "xxx" 8 44; O S ";" 8 47] 8 33] 8 28] (S 8 15)); mk_attr false (S 9 1) (MNameValue (mk_path false [mk_seg "hooq" [] (S 9 3); mk_seg "xxx" [] (S 9 9)]) (VOther [L S (LOther "10") 9 15]))] [] (mk_sig "main" (RetPath (mk_path false [mk_seg "Result" [O S "<" 10 20; G S Parenth [] 10 21; O S "," 10 23; I S "Box" 10 25; O S "<" 10 28; I S "dyn" 10 29; I S "std" 10 33; O S ":" 10 36; O S ":" 10 37; I S "error" 10 38; O S ":" 10 43; O S ":" 10 44; I S "Error" 10 45; O S ">" 10 50; O S ">" 10 51] (S 10 14)])) [I S "fn" 10 1; I S "main" 10 4; G S Parenth [] 10 8; O S "-" 10 11; O S ">" 10 12; I S "Result" 10 14; O S "<" 10 20; G S Parenth [] 10 21; O S "," 10 23; I S "Box" 10 25; O S "<" 10 28; I S "dyn" 10 29; I S "std" 10 33; O S ":" 10 36; O S ":" 10 37; I S "error" 10 38; O S ":" 10 43; O S ":" 10 44; I S "Error" 10 45; O S ">" 10 50; O S ">" 10 51]) (S 10 53) [(SExpr (ETry [] (ECall [] (EPath [] (mk_path false [mk_seg "fallible" [] (S 11 5)])) (S 11 13) [(ETuple [] (S 11 14) [] [])] []) (S 11 17)) (Some (S 11 18))); (SExpr (EBlock [mk_attr false (S 13 5) (MList (mk_path false [mk_seg "hooq" [] (S 13 7); mk_seg "binding" [] (S 13 13)]) Parenth [I S "xxx" 13 21; O S "=" 13 25; L S (LStr "in block") 13 27] (S 13 20))] [] (S 14 5) [(SExpr (ETry [] (ECall [] (EPath [] (mk_path false [mk_seg "fallible" [] (S 15 9)])) (S 15 17) [(ETuple [] (S 15 18) [] [])] []) (S 15 21)) (Some (S 15 22))); (SExpr (ETry [mk_attr false (S 17 9) (MList (mk_path false [mk_seg "hooq" [] (S 17 11); mk_seg "var" [] (S 17 17)]) Parenth [I S "xxx" 17 21; O S "=" 17 25; L S (LOther "42") 17 27] (S 17 20))] (ECall [] (EPath [] (mk_path false [mk_seg "fallible" [] (S 18 9)])) (S 18 17) [(ETuple [] (S 18 18) [] [])] []) (S 18 21)) (Some (S 18 22))); (SExpr (ETry [] (ECall [] (EPath [] (mk_path false [mk_seg "fallible" [] (S 20 9)])) (S 20 17) [(ETuple [] (S 20 18) [] [])] []) (S 20 21)) (Some (S 20 22)))]) None); (SExpr (ETry [] (ECall [] (EPath [] (mk_path false [mk_seg "fallible" [] (S 23 5)])) (S 23 13) [(ETuple [] (S 23 14) [] [])] []) (S 23 17)) (Some (S 23 18))); (SExpr (ECall [] (EPath [] (mk_path false [mk_seg "Ok" [] (S 25 5)])) (S 25 7) [(ETuple [] (S 25 8) [] [])] []) None)]).
Definition args_attribute_binding_main_0 : list meta := let S := at_ "mdbook-source-code/attribute-binding/src/main.rs" in [].
Definition rec_attribute_binding_main_0 : list string :=
  ["fn main ( ) - > Result < ( ) , Box < dyn std : : error : : Error > > { fallible ( ( ) ) . inspect_err ( | _ | { let _ = 10 ; } ) ? ; { fallible ( ( )";
   ") . inspect_err ( | _ | { let _ = ""in\sblock"" ; } ) ? ; fallible ( ( ) ) . inspect_err ( | _ | { let _ = 42 ; } ) ? ; fallible ( ( ) ) . inspect_err (";
   "| _ | { let _ = ""in\sblock"" ; } ) ? ; } fallible ( ( ) ) . inspect_err ( | _ | { let _ = 10 ; } ) ? ; Ok ( ( ) ) }"].
(** main *)
Example recorded_attribute_binding_main_0 : expanded su_attribute_binding_main args_attribute_binding_main_0 it_attribute_binding_main_0 = words rec_attribute_binding_main_0.
Proof. vm_compute. reflexivity. Qed.
(** ** mdbook-source-code/attribute-flavor-1/src/main.rs *)
Definition doc_attribute_flavor_1_main : list (string * ftable) := [("my_flavor", FTable (mk_tcore [] (Some ".inspect(|_| {
    let _ = $tag;
})") None None None None None [("tag", """my_flavor""")]) [("sub_flavor", FTable (mk_tcore [] None None (Some ["Ok"]) None None None [("tag", """my_flavor.sub_flavor""")]) [])])].
Definition texts_attribute_flavor_1_main : list (string * list tt) := let S := at_ "" in [("""my_flavor""", [L S (LStr "my_flavor") 1 1]);
  ("""my_flavor.sub_flavor""", [L S (LStr "my_flavor.sub_flavor") 1 1]);
  (".inspect(|_| {
    let _ = $tag;
})", [O S "." 1 1; I S "inspect" 1 2; G S Parenth [O S "|" 1 10; I S "_" 1 11; O S "|" 1 12; G S Brace [I S "let" 2 5; I S "_" 2 9; O S "=" 2 11; O S "$" 2 13; I S "tag" 2 14; O S ";" 2 17] 1 14] 1 9])].
Definition strs_attribute_flavor_1_main : list (string * string) :=
  [("my_flavor . sub_flavor", "my_flavor.sub_flavor")].
Definition ends_attribute_flavor_1_main : list (N * N * (N * N * string)) :=
  [(3, 2, (3, 19, "")); (3, 7, (3, 18, "")); (4, 8, (4, 10, "")); (4, 21, (4, 23, "")); (4, 53, (8, 2, "")); (5, 9, (5, 11, "")); (7, 7, (7, 11, "")); (7, 8, (7, 10, "")); (10, 2, (10, 31, "")); (10, 7, (10, 30, "")); (11, 15, (11, 23, "")); (11, 45, (13, 2, "")); (12, 7, (12, 12, "")); (15, 2, (15, 41, "")); (15, 7, (15, 40, "")); (15, 17, (15, 39, """my_flavor.sub_flavor""")); (16, 8, (16, 10, "")); (16, 21, (16, 23, "")); (16, 53, (20, 2, "")); (17, 13, (17, 17, "")); (17, 14, (17, 16, "")); (19, 7, (19, 11, "")); (19, 8, (19, 10, ""))].
Definition su_attribute_flavor_1_main : setup := mk_setup (mk_features false false false false false "hooq") doc_attribute_flavor_1_main texts_attribute_flavor_1_main strs_attribute_flavor_1_main [] ends_attribute_flavor_1_main "main".
Definition it_attribute_flavor_1_main_0 : item := let S := at_ "mdbook-source-code/attribute-flavor-1/src/main.rs" in
  (IFn [] [] (mk_sig "main" (RetPath (mk_path false [mk_seg "Result" [O S "<" 4 20; G S Parenth [] 4 21; O S "," 4 23; I S "Box" 4 25; O S "<" 4 28; I S "dyn" 4 29; I S "std" 4 33; O S ":" 4 36; O S ":" 4 37; I S "error" 4 38; O S ":" 4 43; O S ":" 4 44; I S "Error" 4 45; O S ">" 4 50; O S ">" 4 51] (S 4 14)])) [I S "fn" 4 1; I S "main" 4 4; G S Parenth [] 4 8; O S "-" 4 11; O S ">" 4 12; I S "Result" 4 14; O S "<" 4 20; G S Parenth [] 4 21; O S "," 4 23; I S "Box" 4 25; O S "<" 4 28; I S "dyn" 4 29; I S "std" 4 33; O S ":" 4 36; O S ":" 4 37; I S "error" 4 38; O S ":" 4 43; O S ":" 4 44; I S "Error" 4 45; O S ">" 4 50; O S ">" 4 51]) (S 4 53) [(SExpr (ETry [] (ECall [] (EPath [] (mk_path false [mk_seg "func" [] (S 5 5)])) (S 5 9) [] []) (S 5 11)) (Some (S 5 12))); (SExpr (ECall [] (EPath [] (mk_path false [mk_seg "Ok" [] (S 7 5)])) (S 7 7) [(ETuple [] (S 7 8) [] [])] []) None)]).
Definition args_attribute_flavor_1_main_0 : list meta := let S := at_ "mdbook-source-code/attribute-flavor-1/src/main.rs" in [(MPath (mk_path false [mk_seg "my_flavor" [] (S 3 8)]))].
Definition rec_attribute_flavor_1_main_0 : list string :=
  ["fn main ( ) - > Result < ( ) , Box < dyn std : : error : : Error > > { func ( ) . inspect ( | _ | { let _ = ""my_flavor"" ; } ) ? ; Ok ( ( ) ) }"].
Definition it_attribute_flavor_1_main_1 : item := let S := at_ "mdbook-source-code/attribute-flavor-1/src/main.rs" in
  (IFn [] [] (mk_sig "fallible" (RetPath (mk_path false [mk_seg "Result" [O S "<" 11 33; I S "T" 11 34; O S "," 11 35; I S "String" 11 37; O S ">" 11 43] (S 11 27)])) [I S "fn" 11 1; I S "fallible" 11 4; O S "<" 11 12; I S "T" 11 13; O S ">" 11 14; G S Parenth [I S "val" 11 16; O S ":" 11 19; I S "T" 11 21] 11 15; O S "-" 11 24; O S ">" 11 25; I S "Result" 11 27; O S "<" 11 33; I S "T" 11 34; O S "," 11 35; I S "String" 11 37; O S ">" 11 43]) (S 11 45) [(SExpr (ECall [] (EPath [] (mk_path false [mk_seg "Ok" [] (S 12 5)])) (S 12 7) [(EPath [] (mk_path false [mk_seg "val" [] (S 12 8)]))] []) None)]).
Definition args_attribute_flavor_1_main_1 : list meta := let S := at_ "mdbook-source-code/attribute-flavor-1/src/main.rs" in [(MPath (mk_path false [mk_seg "my_flavor" [] (S 10 8); mk_seg "sub_flavor" [] (S 10 19)]))].
Definition rec_attribute_flavor_1_main_1 : list string :=
  ["fn fallible < T > ( val : T ) - > Result < T , String > { Ok ( val ) . inspect ( | _ | { let _ = ""my_flavor.sub_flavor"" ; } ) }"].
Definition it_attribute_flavor_1_main_2 : item := let S := at_ "mdbook-source-code/attribute-flavor-1/src/main.rs" in
  (IFn [] [] (mk_sig "func" (RetPath (mk_path false [mk_seg "Result" [O S "<" 16 20; G S Parenth [] 16 21; O S "," 16 23; I S "Box" 16 25; O S "<" 16 28; I S "dyn" 16 29; I S "std" 16 33; O S ":" 16 36; O S ":" 16 37; I S "error" 16 38; O S ":" 16 43; O S ":" 16 44; I S "Error" 16 45; O S ">" 16 50; O S ">" 16 51] (S 16 14)])) [I S "fn" 16 1; I S "func" 16 4; G S Parenth [] 16 8; O S "-" 16 11; O S ">" 16 12; I S "Result" 16 14; O S "<" 16 20; G S Parenth [] 16 21; O S "," 16 23; I S "Box" 16 25; O S "<" 16 28; I S "dyn" 16 29; I S "std" 16 33; O S ":" 16 36; O S ":" 16 37; I S "error" 16 38; O S ":" 16 43; O S ":" 16 44; I S "Error" 16 45; O S ">" 16 50; O S ">" 16 51]) (S 16 53) [(SExpr (ETry [] (ECall [] (EPath [] (mk_path false [mk_seg "fallible" [] (S 17 5)])) (S 17 13) [(ETuple [] (S 17 14) [] [])] []) (S 17 17)) (Some (S 17 18))); (SExpr (ECall [] (EPath [] (mk_path false [mk_seg "Ok" [] (S 19 5)])) (S 19 7) [(ETuple [] (S 19 8) [] [])] []) None)]).
Definition args_attribute_flavor_1_main_2 : list meta := let S := at_ "mdbook-source-code/attribute-flavor-1/src/main.rs" in [(MNameValue (mk_path false [mk_seg "flavor" [] (S 15 8)]) (VStr "my_flavor.sub_flavor" (S 15 17)))].
Definition rec_attribute_flavor_1_main_2 : list string :=
  ["fn func ( ) - > Result < ( ) , Box < dyn std : : error : : Error > > { fallible ( ( ) ) . inspect ( | _ | { let _ = ""my_flavor.sub_flavor"" ; } ) ? ;";
   "Ok ( ( ) ) . inspect ( | _ | { let _ = ""my_flavor.sub_flavor"" ; } ) }"].
(** main *)
Example recorded_attribute_flavor_1_main_0 : expanded su_attribute_flavor_1_main args_attribute_flavor_1_main_0 it_attribute_flavor_1_main_0 = words rec_attribute_flavor_1_main_0.
Proof. vm_compute. reflexivity. Qed.
(** fallible *)
Example recorded_attribute_flavor_1_main_1 : expanded su_attribute_flavor_1_main args_attribute_flavor_1_main_1 it_attribute_flavor_1_main_1 = words rec_attribute_flavor_1_main_1.
Proof. vm_compute. reflexivity. Qed.
(** func *)
Example recorded_attribute_flavor_1_main_2 : expanded su_attribute_flavor_1_main args_attribute_flavor_1_main_2 it_attribute_flavor_1_main_2 = words rec_attribute_flavor_1_main_2.
Proof. vm_compute. reflexivity. Qed.
(** ** mdbook-source-code/attribute-method/src/main.rs *)
Definition doc_attribute_method_main : list (string * ftable) := [].
Definition texts_attribute_method_main : list (string * list tt) := let S := at_ "" in [].
Definition strs_attribute_method_main : list (string * string) :=
  [].
Definition ends_attribute_method_main : list (N * N * (N * N * string)) :=
  [(3, 2, (3, 8, "")); (4, 2, (4, 67, "")); (4, 15, (4, 66, "")); (4, 28, (4, 65, "")); (4, 33, (4, 64, "")); (4, 43, (4, 61, """specified @ root""")); (5, 8, (5, 10, "")); (5, 21, (5, 23, "")); (5, 53, (12, 2, "")); (6, 13, (6, 17, "")); (6, 14, (6, 16, "")); (8, 6, (8, 72, "")); (8, 19, (8, 71, "")); (8, 32, (8, 70, "")); (8, 37, (8, 69, "")); (8, 47, (8, 66, """specified @ inner""")); (9, 13, (9, 17, "")); (9, 14, (9, 16, "")); (11, 7, (11, 11, "")); (11, 8, (11, 10, "")); (14, 15, (14, 23, "")); (14, 45, (16, 2, "")); (15, 7, (15, 12, ""))].
Definition su_attribute_method_main : setup := mk_setup (mk_features false false false false false "hooq") doc_attribute_method_main texts_attribute_method_main strs_attribute_method_main [] ends_attribute_method_main "main".
Definition it_attribute_method_main_0 : item := let S := at_ "mdbook-source-code/attribute-method/src/main.rs" in
  (IFn [mk_attr false (S 4 1) (MList (mk_path false [mk_seg "hooq" [] (S 4 3); mk_seg "method" [] (S 4 9)]) Parenth [O S "." 4 16; I S "inspect_err" 4 17; G S Parenth [O S "|" 4 29; I S "_" 4 30; O S "|" 4 31; G S Brace [I S "let" 4 35; I S "_" 4 39; O S "=" 4 41; L S (LStr "specified @ root") 4 43; O S ";" 4 61] 4 33] 4 28] (S 4 15))] [] (mk_sig "main" (RetPath (mk_path false [mk_seg "Result" [O S "<" 5 20; G S Parenth [] 5 21; O S "," 5 23; I S "Box" 5 25; O S "<" 5 28; I S "dyn" 5 29; I S "std" 5 33; O S ":" 5 36; O S ":" 5 37; I S "error" 5 38; O S ":" 5 43; O S ":" 5 44; I S "Error" 5 45; O S ">" 5 50; O S ">" 5 51] (S 5 14)])) [I S "fn" 5 1; I S "main" 5 4; G S Parenth [] 5 8; O S "-" 5 11; O S ">" 5 12; I S "Result" 5 14; O S "<" 5 20; G S Parenth [] 5 21; O S "," 5 23; I S "Box" 5 25; O S "<" 5 28; I S "dyn" 5 29; I S "std" 5 33; O S ":" 5 36; O S ":" 5 37; I S "error" 5 38; O S ":" 5 43; O S ":" 5 44; I S "Error" 5 45; O S ">" 5 50; O S ">" 5 51]) (S 5 53) [(SExpr (ETry [] (ECall [] (EPath [] (mk_path false [mk_seg "fallible" [] (S 6 5)])) (S 6 13) [(ETuple [] (S 6 14) [] [])] []) (S 6 17)) (Some (S 6 18))); (SExpr (ETry [mk_attr false (S 8 5) (MList (mk_path false [mk_seg "hooq" [] (S 8 7); mk_seg "method" [] (S 8 13)]) Parenth [O S "." 8 20; I S "inspect_err" 8 21; G S Parenth [O S "|" 8 33; I S "_" 8 34; O S "|" 8 35; G S Brace [I S "let" 8 39; I S "_" 8 43; O S "=" 8 45; L S (LStr "specified @ inner") 8 47; O S ";" 8 66] 8 37] 8 32] (S 8 19))] (ECall [] (EPath [] (mk_path false [mk_seg "fallible" [] (S 9 5)])) (S 9 13) [(ETuple [] (S 9 14) [] [])] []) (S 9 17)) (Some (S 9 18))); (SExpr (ECall [] (EPath [] (mk_path false [mk_seg "Ok" [] (S 11 5)])) (S 11 7) [(ETuple [] (S 11 8) [] [])] []) None)]).
Definition args_attribute_method_main_0 : list meta := let S := at_ "mdbook-source-code/attribute-method/src/main.rs" in [].
Definition rec_attribute_method_main_0 : list string :=
  ["fn main ( ) - > Result < ( ) , Box < dyn std : : error : : Error > > { fallible ( ( ) ) . inspect_err ( | _ | { let _ = ""specified\s@\sroot"" ; } ) ? ;";
   "fallible ( ( ) ) . inspect_err ( | _ | { let _ = ""specified\s@\sinner"" ; } ) ? ; Ok ( ( ) ) }"].
(** main *)
Example recorded_attribute_method_main_0 : expanded su_attribute_method_main args_attribute_method_main_0 it_attribute_method_main_0 = words rec_attribute_method_main_0.
Proof. vm_compute. reflexivity. Qed.
(** ** mdbook-source-code/attribute-part-flavor/src/main.rs *)
Definition doc_attribute_part_flavor_main : list (string * ftable) := [("my_flavor", FTable (mk_tcore [] (Some ".inspect_err(|_| {
    let _ = ""from my_flavor"";
    let _x = $xxx;
    let _y = $yyy;
})") None None None (Some ["Result"; "MyResult"]) None [("xxx", """xxx from my_flavor"""); ("yyy", """yyy from my_flavor""")]) [])].
Definition texts_attribute_part_flavor_main : list (string * list tt) := let S := at_ "" in [("""xxx from my_flavor""", [L S (LStr "xxx from my_flavor") 1 1]);
  ("""yyy from my_flavor""", [L S (LStr "yyy from my_flavor") 1 1]);
  (".inspect_err(|_| {
    let _ = ""from my_flavor"";
    let _x = $xxx;
    let _y = $yyy;
})", [O S "." 1 1; I S "inspect_err" 1 2; G S Parenth [O S "|" 1 14; I S "_" 1 15; O S "|" 1 16; G S Brace [I S "let" 2 5; I S "_" 2 9; O S "=" 2 11; L S (LStr "from my_flavor") 2 13; O S ";" 2 29; I S "let" 3 5; I S "_x" 3 9; O S "=" 3 12; O S "$" 3 14; I S "xxx" 3 15; O S ";" 3 18; I S "let" 4 5; I S "_y" 4 9; O S "=" 4 12; O S "$" 4 14; I S "yyy" 4 15; O S ";" 4 18] 1 18] 1 13])].
Definition strs_attribute_part_flavor_main : list (string * string) :=
  [].
Definition ends_attribute_part_flavor_main : list (N * N * (N * N * string)) :=
  [(3, 15, (3, 23, "")); (3, 45, (5, 2, "")); (4, 7, (4, 12, "")); (7, 24, (7, 26, "")); (9, 2, (9, 8, "")); (10, 2, (13, 5, "")); (10, 15, (13, 4, "")); (10, 28, (13, 3, "")); (10, 33, (13, 2, "")); (14, 2, (14, 27, "")); (14, 15, (14, 26, """from root""")); (15, 2, (15, 27, "")); (15, 15, (15, 26, """from root""")); (16, 8, (16, 10, "")); (16, 21, (16, 23, "")); (16, 53, (39, 2, "")); (17, 13, (17, 17, "")); (17, 14, (17, 16, "")); (20, 28, (20, 44, "")); (20, 38, (20, 42, "")); (20, 39, (20, 41, "")); (22, 6, (22, 34, "")); (22, 22, (22, 33, """my_flavor""")); (24, 13, (24, 17, "")); (24, 14, (24, 16, "")); (26, 6, (26, 40, "")); (26, 28, (26, 39, """my_flavor""")); (28, 28, (28, 44, "")); (28, 38, (28, 42, "")); (28, 39, (28, 41, "")); (30, 6, (30, 36, "")); (30, 24, (30, 35, """my_flavor""")); (32, 13, (32, 17, "")); (32, 14, (32, 16, "")); (34, 6, (34, 34, "")); (34, 22, (34, 33, """my_flavor""")); (36, 13, (36, 17, "")); (36, 14, (36, 16, "")); (38, 7, (38, 11, "")); (38, 8, (38, 10, ""))].
Definition su_attribute_part_flavor_main : setup := mk_setup (mk_features false false false false false "hooq") doc_attribute_part_flavor_main texts_attribute_part_flavor_main strs_attribute_part_flavor_main [] ends_attribute_part_flavor_main "main".
Definition it_attribute_part_flavor_main_0 : item := let S := at_ "mdbook-source-code/attribute-part-flavor/src/main.rs" in
  (IFn [mk_attr false (S 10 1) (MList (mk_path false [mk_seg "hooq" [] (S 10 3); mk_seg "method" [] (S 10 9)]) Parenth [O S "." 10 16; I S "inspect_err" 10 17; G S Parenth [O S "|" 10 29; I S "_" 10 30; O S "|" 10 31; G S Brace [I S "let" 11 5; I S "_x" 11 9; O S "=" 11 12; O S "$" 11 14; I S "xxx" 11 15; O S ";" 11 18; I S "let" 12 5; I S "_y" 12 9; O S "=" 12 12; O S "$" 12 14; I S "yyy" 12 15; O S ";" 12 18] 10 33] 10 28] (S 10 15)); mk_attr false (S 14 1) (MNameValue (mk_path false [mk_seg "hooq" [] (S 14 3); mk_seg "xxx" [] (S 14 9)]) (VStr "from root" (S 14 15))); mk_attr false (S 15 1) (MNameValue (mk_path false [mk_seg "hooq" [] (S 15 3); mk_seg "yyy" [] (S 15 9)]) (VStr "from root" (S 15 15)))] [] (mk_sig "main" (RetPath (mk_path false [mk_seg "Result" [O S "<" 16 20; G S Parenth [] 16 21; O S "," 16 23; I S "Box" 16 25; O S "<" 16 28; I S "dyn" 16 29; I S "std" 16 33; O S ":" 16 36; O S ":" 16 37; I S "error" 16 38; O S ":" 16 43; O S ":" 16 44; I S "Error" 16 45; O S ">" 16 50; O S ">" 16 51] (S 16 14)])) [I S "fn" 16 1; I S "main" 16 4; G S Parenth [] 16 8; O S "-" 16 11; O S ">" 16 12; I S "Result" 16 14; O S "<" 16 20; G S Parenth [] 16 21; O S "," 16 23; I S "Box" 16 25; O S "<" 16 28; I S "dyn" 16 29; I S "std" 16 33; O S ":" 16 36; O S ":" 16 37; I S "error" 16 38; O S ":" 16 43; O S ":" 16 44; I S "Error" 16 45; O S ">" 16 50; O S ">" 16 51]) (S 16 53) [(SExpr (ETry [] (ECall [] (EPath [] (mk_path false [mk_seg "fallible" [] (S 17 5)])) (S 17 13) [(ETuple [] (S 17 14) [] [])] []) (S 17 17)) (Some (S 17 18))); (SLocalInit [] [I S "let" 20 5; I S "_" 20 9; O S "=" 20 11] (EClosure [] [O S "|" 20 13; O S "|" 20 14; O S "-" 20 16; O S ">" 20 17; I S "MyResult" 20 19] (RetPath (mk_path false [mk_seg "MyResult" [] (S 20 19)])) (EBlock [] [] (S 20 28) [(SExpr (ECall [] (EPath [] (mk_path false [mk_seg "fallible" [] (S 20 30)])) (S 20 38) [(ETuple [] (S 20 39) [] [])] []) None)])) [] None [O S ";" 20 44]); (SExpr (ETry [mk_attr false (S 22 5) (MNameValue (mk_path false [mk_seg "hooq" [] (S 22 7); mk_seg "method" [] (S 22 13)]) (VStr "my_flavor" (S 22 22)))] (ECall [] (EPath [] (mk_path false [mk_seg "fallible" [] (S 24 5)])) (S 24 13) [(ETuple [] (S 24 14) [] [])] []) (S 24 17)) (Some (S 24 18))); (SLocalInit [mk_attr false (S 26 5) (MNameValue (mk_path false [mk_seg "hooq" [] (S 26 7); mk_seg "result_types" [] (S 26 13)]) (VStr "my_flavor" (S 26 28)))] [I S "let" 28 5; I S "_" 28 9; O S "=" 28 11] (EClosure [] [O S "|" 28 13; O S "|" 28 14; O S "-" 28 16; O S ">" 28 17; I S "MyResult" 28 19] (RetPath (mk_path false [mk_seg "MyResult" [] (S 28 19)])) (EBlock [] [] (S 28 28) [(SExpr (ECall [] (EPath [] (mk_path false [mk_seg "fallible" [] (S 28 30)])) (S 28 38) [(ETuple [] (S 28 39) [] [])] []) None)])) [] None [O S ";" 28 44]); (SExpr (ETry [mk_attr false (S 30 5) (MNameValue (mk_path false [mk_seg "hooq" [] (S 30 7); mk_seg "bindings" [] (S 30 13)]) (VStr "my_flavor" (S 30 24)))] (ECall [] (EPath [] (mk_path false [mk_seg "fallible" [] (S 32 5)])) (S 32 13) [(ETuple [] (S 32 14) [] [])] []) (S 32 17)) (Some (S 32 18))); (SExpr (ETry [mk_attr false (S 34 5) (MNameValue (mk_path false [mk_seg "hooq" [] (S 34 7); mk_seg "flavor" [] (S 34 13)]) (VStr "my_flavor" (S 34 22)))] (ECall [] (EPath [] (mk_path false [mk_seg "fallible" [] (S 36 5)])) (S 36 13) [(ETuple [] (S 36 14) [] [])] []) (S 36 17)) (Some (S 36 18))); (SExpr (ECall [] (EPath [] (mk_path false [mk_seg "Ok" [] (S 38 5)])) (S 38 7) [(ETuple [] (S 38 8) [] [])] []) None)]).
Definition args_attribute_part_flavor_main_0 : list meta := let S := at_ "mdbook-source-code/attribute-part-flavor/src/main.rs" in [].
Definition rec_attribute_part_flavor_main_0 : list string :=
  ["fn main ( ) - > Result < ( ) , Box < dyn std : : error : : Error > > { fallible ( ( ) ) . inspect_err ( | _ | { let _x = ""from\sroot"" ; let _y =";
   """from\sroot"" ; } ) ? ; let _ = | | - > MyResult { fallible ( ( ) ) } ; fallible ( ( ) ) . inspect_err ( | _ | { let _ = ""from\smy_flavor"" ; let _x =";
   """from\sroot"" ; let _y = ""from\sroot"" ; } ) ? ; let _ = | | - > MyResult { fallible ( ( ) ) . inspect_err ( | _ | { let _x = ""from\sroot"" ; let _y =";
   """from\sroot"" ; } ) } ; fallible ( ( ) ) . inspect_err ( | _ | { let _x = ""xxx\sfrom\smy_flavor"" ; let _y = ""yyy\sfrom\smy_flavor"" ; } ) ? ; fallible (";
   "( ) ) . inspect_err ( | _ | { let _ = ""from\smy_flavor"" ; let _x = ""xxx\sfrom\smy_flavor"" ; let _y = ""yyy\sfrom\smy_flavor"" ; } ) ? ; Ok ( ( ) ) }"].
(** main *)
Example recorded_attribute_part_flavor_main_0 : expanded su_attribute_part_flavor_main args_attribute_part_flavor_main_0 it_attribute_part_flavor_main_0 = words rec_attribute_part_flavor_main_0.
Proof. vm_compute. reflexivity. Qed.
(** ** mdbook-source-code/consume_question/src/main.rs *)
Definition doc_consume_question_main : list (string * ftable) := [].
Definition texts_consume_question_main : list (string * list tt) := let S := at_ "" in [].
Definition strs_consume_question_main : list (string * string) :=
  [].
Definition ends_consume_question_main : list (N * N * (N * N * string)) :=
  [(3, 15, (3, 23, "")); (3, 51, (5, 2, "")); (4, 7, (4, 12, "")); (7, 2, (7, 8, "")); (8, 2, (8, 27, "")); (8, 21, (8, 26, "")); (8, 22, (8, 25, """?""")); (9, 2, (9, 28, "")); (9, 15, (9, 27, "")); (9, 23, (9, 25, "")); (10, 8, (10, 10, "")); (10, 11, (12, 2, "")); (11, 13, (11, 17, "")); (11, 14, (11, 16, ""))].
Definition su_consume_question_main : setup := mk_setup (mk_features true false false false false "hooq") doc_consume_question_main texts_consume_question_main strs_consume_question_main [] ends_consume_question_main "main".
Definition it_consume_question_main_0 : item := let S := at_ "mdbook-source-code/consume_question/src/main.rs" in
  (IFn [mk_attr false (S 8 1) (MList (mk_path false [mk_seg "hooq" [] (S 8 3); mk_seg "hook_targets" [] (S 8 9)]) Parenth [L S (LStr "?") 8 22] (S 8 21)); mk_attr false (S 9 1) (MList (mk_path false [mk_seg "hooq" [] (S 9 3); mk_seg "method" [] (S 9 9)]) Parenth [O S "." 9 16; I S "unwrap" 9 17; G S Parenth [] 9 23; O S "!" 9 25] (S 9 15))] [] (mk_sig "main" RetNone [I S "fn" 10 1; I S "main" 10 4; G S Parenth [] 10 8]) (S 10 11) [(SExpr (ETry [] (ECall [] (EPath [] (mk_path false [mk_seg "fallible" [] (S 11 5)])) (S 11 13) [(ETuple [] (S 11 14) [] [])] []) (S 11 17)) (Some (S 11 18)))]).
Definition args_consume_question_main_0 : list meta := let S := at_ "mdbook-source-code/consume_question/src/main.rs" in [].
Definition rec_consume_question_main_0 : list string :=
  ["fn main ( ) { fallible ( ( ) ) . unwrap ( ) ; }"].
(** main *)
Example recorded_consume_question_main_0 : expanded su_consume_question_main args_consume_question_main_0 it_consume_question_main_0 = words rec_consume_question_main_0.
Proof. vm_compute. reflexivity. Qed.
(** ** mdbook-source-code/flavor-hook/src/main.rs *)
Definition doc_flavor_hook_main : list (string * ftable) := [].
Definition texts_flavor_hook_main : list (string * list tt) := let S := at_ "" in [].
Definition strs_flavor_hook_main : list (string * string) :=
  [("fallible ( ( ) ) ?", "fallible(()) ?");
   ("main . rs", "main.rs");
   ("mdbook - source - code / flavor - hook / src / main . rs", "mdbook-source-code/flavor-hook/src/main.rs")].
Definition ends_flavor_hook_main : list (N * N * (N * N * string)) :=
  [(3, 14, (25, 2, "")); (4, 22, (6, 6, "")); (5, 16, (5, 64, "")); (5, 43, (5, 45, "")); (11, 5, (24, 6, "")); (12, 16, (12, 64, "")); (12, 43, (12, 45, "")); (12, 73, (23, 10, "")); (13, 23, (13, 26, "")); (13, 35, (20, 14, "")); (14, 35, (14, 37, "")); (16, 26, (19, 18, "")); (17, 21, (17, 54, """[{}:{}:{}] error occurred: {:?}""")); (27, 15, (27, 23, "")); (27, 45, (29, 2, "")); (28, 7, (28, 12, "")); (31, 2, (31, 44, "")); (31, 7, (31, 43, "")); (31, 24, (31, 42, "")); (32, 8, (32, 10, "")); (32, 21, (32, 23, "")); (32, 53, (36, 2, "")); (33, 13, (33, 17, "")); (33, 14, (33, 16, "")); (35, 7, (35, 11, "")); (35, 8, (35, 10, ""))].
Definition su_flavor_hook_main : setup := mk_setup (mk_features false false false false false "hooq") doc_flavor_hook_main texts_flavor_hook_main strs_flavor_hook_main [] ends_flavor_hook_main "main".
Definition it_flavor_hook_main_0 : item := let S := at_ "mdbook-source-code/flavor-hook/src/main.rs" in
  (IFn [] [] (mk_sig "main" (RetPath (mk_path false [mk_seg "Result" [O S "<" 32 20; G S Parenth [] 32 21; O S "," 32 23; I S "Box" 32 25; O S "<" 32 28; I S "dyn" 32 29; I S "std" 32 33; O S ":" 32 36; O S ":" 32 37; I S "error" 32 38; O S ":" 32 43; O S ":" 32 44; I S "Error" 32 45; O S ">" 32 50; O S ">" 32 51] (S 32 14)])) [I S "fn" 32 1; I S "main" 32 4; G S Parenth [] 32 8; O S "-" 32 11; O S ">" 32 12; I S "Result" 32 14; O S "<" 32 20; G S Parenth [] 32 21; O S "," 32 23; I S "Box" 32 25; O S "<" 32 28; I S "dyn" 32 29; I S "std" 32 33; O S ":" 32 36; O S ":" 32 37; I S "error" 32 38; O S ":" 32 43; O S ":" 32 44; I S "Error" 32 45; O S ">" 32 50; O S ">" 32 51]) (S 32 53) [(SExpr (ETry [] (ECall [] (EPath [] (mk_path false [mk_seg "fallible" [] (S 33 5)])) (S 33 13) [(ETuple [] (S 33 14) [] [])] []) (S 33 17)) (Some (S 33 18))); (SExpr (ECall [] (EPath [] (mk_path false [mk_seg "Ok" [] (S 35 5)])) (S 35 7) [(ETuple [] (S 35 8) [] [])] []) None)]).
Definition args_flavor_hook_main_0 : list meta := let S := at_ "mdbook-source-code/flavor-hook/src/main.rs" in [(MPath (mk_path false [mk_seg "hook" [] (S 31 8)])); (MList (mk_path false [mk_seg "trait_uses" [] (S 31 14)]) Parenth [I S "my_error" 31 25; O S ":" 31 33; O S ":" 31 34; I S "MyHook" 31 35] (S 31 24))].
Definition rec_flavor_hook_main_0 : list string :=
  ["# [ allow ( unused ) ] use my_error : : MyHook as _ ; fn main ( ) - > Result < ( ) , Box < dyn std : : error : : Error > > { fallible ( ( ) ) . hook (";
   "| | : : hooq : : HooqMeta { line : 33usize , column : 17usize , path : ""mdbook-source-code/flavor-hook/src/main.rs"" , file : ""main.rs"" , source_str :";
   """fallible(())\s?"" , count : ""1st\s?"" , bindings : : : std : : collections : : HashMap : : from ( [ ] ) } ) ? ; Ok ( ( ) ) }"].
(** main *)
Example recorded_flavor_hook_main_0 : expanded su_flavor_hook_main args_flavor_hook_main_0 it_flavor_hook_main_0 = words rec_flavor_hook_main_0.
Proof. vm_compute. reflexivity. Qed.
(** ** mdbook-source-code/hook_in_macros/src/main.rs *)
Definition doc_hook_in_macros_main : list (string * ftable) := [].
Definition texts_hook_in_macros_main : list (string * list tt) := let S := at_ "" in [].
Definition strs_hook_in_macros_main : list (string * string) :=
  [("{ 0 }", "{0}
")].
Definition ends_hook_in_macros_main : list (N * N * (N * N * string)) :=
  [(3, 15, (3, 23, "")); (3, 45, (5, 2, "")); (4, 7, (4, 12, "")); (7, 2, (7, 8, "")); (8, 2, (8, 38, "")); (8, 15, (8, 37, "")); (8, 28, (8, 36, "")); (8, 33, (8, 35, "")); (9, 8, (9, 10, "")); (9, 21, (9, 23, "")); (9, 53, (16, 2, "")); (10, 13, (10, 39, "")); (10, 14, (10, 18, """{}""")); (10, 28, (10, 37, "")); (10, 29, (10, 36, """hello""")); (12, 6, (12, 35, "")); (12, 27, (12, 34, "")); (13, 13, (13, 39, "")); (13, 14, (13, 18, """{}""")); (13, 28, (13, 37, "")); (13, 29, (13, 36, """world""")); (15, 7, (15, 11, "")); (15, 8, (15, 10, ""))].
Definition su_hook_in_macros_main : setup := mk_setup (mk_features false false false false false "hooq") doc_hook_in_macros_main texts_hook_in_macros_main strs_hook_in_macros_main [] ends_hook_in_macros_main "main".
Definition it_hook_in_macros_main_0 : item := let S := at_ "mdbook-source-code/hook_in_macros/src/main.rs" in
  (IFn [mk_attr false (S 8 1) (MList (mk_path false [mk_seg "hooq" [] (S 8 3); mk_seg "method" [] (S 8 9)]) Parenth [O S "." 8 16; I S "inspect_err" 8 17; G S Parenth [O S "|" 8 29; I S "_" 8 30; O S "|" 8 31; G S Brace [] 8 33] 8 28] (S 8 15))] [] (mk_sig "main" (RetPath (mk_path false [mk_seg "Result" [O S "<" 9 20; G S Parenth [] 9 21; O S "," 9 23; I S "Box" 9 25; O S "<" 9 28; I S "dyn" 9 29; I S "std" 9 33; O S ":" 9 36; O S ":" 9 37; I S "error" 9 38; O S ":" 9 43; O S ":" 9 44; I S "Error" 9 45; O S ">" 9 50; O S ">" 9 51] (S 9 14)])) [I S "fn" 9 1; I S "main" 9 4; G S Parenth [] 9 8; O S "-" 9 11; O S ">" 9 12; I S "Result" 9 14; O S "<" 9 20; G S Parenth [] 9 21; O S "," 9 23; I S "Box" 9 25; O S "<" 9 28; I S "dyn" 9 29; I S "std" 9 33; O S ":" 9 36; O S ":" 9 37; I S "error" 9 38; O S ":" 9 43; O S ":" 9 44; I S "Error" 9 45; O S ">" 9 50; O S ">" 9 51]) (S 9 53) [(SMacro [] (Mac (mk_path false [mk_seg "println" [] (S 10 5)]) Parenth (S 10 13) [L S (LStr "{}") 10 14; O S "," 10 18; I S "fallible" 10 20; G S Parenth [L S (LStr "hello") 10 29] 10 28; O S "?" 10 37] (Some [VExpr (ELit [] (LStr "{}") (S 10 14)) [O S "," 10 18]; VExpr (ETry [] (ECall [] (EPath [] (mk_path false [mk_seg "fallible" [] (S 10 20)])) (S 10 28) [(ELit [] (LStr "hello") (S 10 29))] []) (S 10 37)) []])) [O S ";" 10 39]); (SMacro [mk_attr false (S 12 5) (MList (mk_path false [mk_seg "hooq" [] (S 12 7); mk_seg "hook_in_macros" [] (S 12 13)]) Parenth [I S "false" 12 28] (S 12 27))] (Mac (mk_path false [mk_seg "println" [] (S 13 5)]) Parenth (S 13 13) [L S (LStr "{}") 13 14; O S "," 13 18; I S "fallible" 13 20; G S Parenth [L S (LStr "world") 13 29] 13 28; O S "?" 13 37] (Some [VExpr (ELit [] (LStr "{}") (S 13 14)) [O S "," 13 18]; VExpr (ETry [] (ECall [] (EPath [] (mk_path false [mk_seg "fallible" [] (S 13 20)])) (S 13 28) [(ELit [] (LStr "world") (S 13 29))] []) (S 13 37)) []])) [O S ";" 13 39]); (SExpr (ECall [] (EPath [] (mk_path false [mk_seg "Ok" [] (S 15 5)])) (S 15 7) [(ETuple [] (S 15 8) [] [])] []) None)]).
Definition args_hook_in_macros_main_0 : list meta := let S := at_ "mdbook-source-code/hook_in_macros/src/main.rs" in [].
Definition rec_hook_in_macros_main_0 : list string :=
  ["fn main ( ) - > Result < ( ) , Box < dyn std : : error : : Error > > { { : : std : : io : : _print ( format_args ! ( ""{0}\n"" , fallible ( ""hello"" ) .";
   "inspect_err ( | _ | ) ? ) ) ; } ; { : : std : : io : : _print ( format_args ! ( ""{0}\n"" , fallible ( ""world"" ) ? ) ) ; } ; Ok ( ( ) ) }"].
(** main *)
Example recorded_hook_in_macros_main_0 : expanded su_hook_in_macros_main args_hook_in_macros_main_0 it_hook_in_macros_main_0 = words rec_hook_in_macros_main_0.
Proof. vm_compute. reflexivity. Qed.
(** ** mdbook-source-code/hook_targets/src/main.rs *)
Definition doc_hook_targets_main : list (string * ftable) := [].
Definition texts_hook_targets_main : list (string * list tt) := let S := at_ "" in [].
Definition strs_hook_targets_main : list (string * string) :=
  [].
Definition ends_hook_targets_main : list (N * N * (N * N * string)) :=
  [(3, 15, (3, 23, "")); (3, 45, (5, 2, "")); (4, 7, (4, 12, "")); (7, 2, (7, 8, "")); (8, 2, (8, 38, "")); (8, 15, (8, 37, "")); (8, 28, (8, 36, "")); (8, 33, (8, 35, "")); (9, 2, (9, 27, "")); (9, 21, (9, 26, "")); (9, 22, (9, 25, """?""")); (10, 19, (10, 21, "")); (10, 32, (10, 34, "")); (10, 44, (22, 2, "")); (11, 13, (11, 17, "")); (11, 14, (11, 16, "")); (13, 16, (13, 23, "")); (13, 25, (15, 6, "")); (14, 19, (14, 35, "")); (14, 20, (14, 27, """error""")); (14, 32, (14, 34, "")); (17, 16, (17, 22, "")); (17, 24, (19, 6, "")); (18, 11, (18, 15, "")); (18, 12, (18, 14, "")); (19, 12, (21, 6, "")); (20, 12, (20, 28, "")); (20, 13, (20, 20, """error""")); (20, 25, (20, 27, "")); (24, 2, (24, 8, "")); (25, 2, (25, 38, "")); (25, 15, (25, 37, "")); (25, 28, (25, 36, "")); (25, 33, (25, 35, "")); (26, 2, (26, 32, "")); (26, 21, (26, 31, "")); (26, 22, (26, 30, """return""")); (27, 17, (27, 19, "")); (27, 30, (27, 32, "")); (27, 42, (39, 2, "")); (28, 13, (28, 17, "")); (28, 14, (28, 16, "")); (30, 16, (30, 23, "")); (30, 25, (32, 6, "")); (31, 19, (31, 35, "")); (31, 20, (31, 27, """error""")); (31, 32, (31, 34, "")); (34, 16, (34, 22, "")); (34, 24, (36, 6, "")); (35, 11, (35, 15, "")); (35, 12, (35, 14, "")); (36, 12, (38, 6, "")); (37, 12, (37, 28, "")); (37, 13, (37, 20, """error""")); (37, 25, (37, 27, "")); (41, 2, (41, 8, "")); (42, 2, (42, 38, "")); (42, 15, (42, 37, "")); (42, 28, (42, 36, "")); (42, 33, (42, 35, "")); (43, 2, (43, 35, "")); (43, 21, (43, 34, "")); (43, 22, (43, 33, """tail_expr""")); (44, 20, (44, 22, "")); (44, 33, (44, 35, "")); (44, 45, (56, 2, "")); (45, 13, (45, 17, "")); (45, 14, (45, 16, "")); (47, 16, (47, 23, "")); (47, 25, (49, 6, "")); (48, 19, (48, 35, "")); (48, 20, (48, 27, """error""")); (48, 32, (48, 34, "")); (51, 16, (51, 22, "")); (51, 24, (53, 6, "")); (52, 11, (52, 15, "")); (52, 12, (52, 14, "")); (53, 12, (55, 6, "")); (54, 12, (54, 28, "")); (54, 13, (54, 20, """error""")); (54, 25, (54, 27, "")); (58, 8, (58, 10, "")); (58, 11, (62, 2, "")); (59, 28, (59, 30, "")); (60, 26, (60, 28, "")); (61, 29, (61, 31, ""))].
Definition su_hook_targets_main : setup := mk_setup (mk_features false false false false false "hooq") doc_hook_targets_main texts_hook_targets_main strs_hook_targets_main [] ends_hook_targets_main "main".
Definition it_hook_targets_main_0 : item := let S := at_ "mdbook-source-code/hook_targets/src/main.rs" in
  (IFn [mk_attr false (S 8 1) (MList (mk_path false [mk_seg "hooq" [] (S 8 3); mk_seg "method" [] (S 8 9)]) Parenth [O S "." 8 16; I S "inspect_err" 8 17; G S Parenth [O S "|" 8 29; I S "_" 8 30; O S "|" 8 31; G S Brace [] 8 33] 8 28] (S 8 15)); mk_attr false (S 9 1) (MList (mk_path false [mk_seg "hooq" [] (S 9 3); mk_seg "hook_targets" [] (S 9 9)]) Parenth [L S (LStr "?") 9 22] (S 9 21))] [] (mk_sig "target_question" (RetPath (mk_path false [mk_seg "Result" [O S "<" 10 31; G S Parenth [] 10 32; O S "," 10 34; I S "String" 10 36; O S ">" 10 42] (S 10 25)])) [I S "fn" 10 1; I S "target_question" 10 4; G S Parenth [] 10 19; O S "-" 10 22; O S ">" 10 23; I S "Result" 10 25; O S "<" 10 31; G S Parenth [] 10 32; O S "," 10 34; I S "String" 10 36; O S ">" 10 42]) (S 10 44) [(SExpr (ETry [] (ECall [] (EPath [] (mk_path false [mk_seg "fallible" [] (S 11 5)])) (S 11 13) [(ETuple [] (S 11 14) [] [])] []) (S 11 17)) (Some (S 11 18))); (SExpr (EIf [] [I S "if" 13 5] (ETry [] (ECall [] (EPath [] (mk_path false [mk_seg "fallible" [] (S 13 8)])) (S 13 16) [(EPath [] (mk_path false [mk_seg "false" [] (S 13 17)]))] []) (S 13 23)) (S 13 25) [(SExpr (EReturn [] (S 14 9) (Some (ECall [] (EPath [] (mk_path false [mk_seg "Err" [] (S 14 16)])) (S 14 19) [(EMethodCall [] (ELit [] (LStr "error") (S 14 20)) [O S "." 14 27; I S "into" 14 28] (S 14 32) [] [])] []))) (Some (S 14 35)))] [] None) None); (SExpr (EIf [] [I S "if" 17 5] (ETry [] (ECall [] (EPath [] (mk_path false [mk_seg "fallible" [] (S 17 8)])) (S 17 16) [(EPath [] (mk_path false [mk_seg "true" [] (S 17 17)]))] []) (S 17 22)) (S 17 24) [(SExpr (ECall [] (EPath [] (mk_path false [mk_seg "Ok" [] (S 18 9)])) (S 18 11) [(ETuple [] (S 18 12) [] [])] []) None)] [I S "else" 19 7] (Some (EBlock [] [] (S 19 12) [(SExpr (ECall [] (EPath [] (mk_path false [mk_seg "Err" [] (S 20 9)])) (S 20 12) [(EMethodCall [] (ELit [] (LStr "error") (S 20 13)) [O S "." 20 20; I S "into" 20 21] (S 20 25) [] [])] []) None)]))) None)]).
Definition args_hook_targets_main_0 : list meta := let S := at_ "mdbook-source-code/hook_targets/src/main.rs" in [].
Definition rec_hook_targets_main_0 : list string :=
  ["fn target_question ( ) - > Result < ( ) , String > { fallible ( ( ) ) . inspect_err ( | _ | ) ? ; if fallible ( false ) . inspect_err ( | _ | ) ? {";
   "return Err ( ""error"" . into ( ) ) ; } if fallible ( true ) . inspect_err ( | _ | ) ? { Ok ( ( ) ) } else { Err ( ""error"" . into ( ) ) } }"].
Definition it_hook_targets_main_1 : item := let S := at_ "mdbook-source-code/hook_targets/src/main.rs" in
  (IFn [mk_attr false (S 25 1) (MList (mk_path false [mk_seg "hooq" [] (S 25 3); mk_seg "method" [] (S 25 9)]) Parenth [O S "." 25 16; I S "inspect_err" 25 17; G S Parenth [O S "|" 25 29; I S "_" 25 30; O S "|" 25 31; G S Brace [] 25 33] 25 28] (S 25 15)); mk_attr false (S 26 1) (MList (mk_path false [mk_seg "hooq" [] (S 26 3); mk_seg "hook_targets" [] (S 26 9)]) Parenth [L S (LStr "return") 26 22] (S 26 21))] [] (mk_sig "target_return" (RetPath (mk_path false [mk_seg "Result" [O S "<" 27 29; G S Parenth [] 27 30; O S "," 27 32; I S "String" 27 34; O S ">" 27 40] (S 27 23)])) [I S "fn" 27 1; I S "target_return" 27 4; G S Parenth [] 27 17; O S "-" 27 20; O S ">" 27 21; I S "Result" 27 23; O S "<" 27 29; G S Parenth [] 27 30; O S "," 27 32; I S "String" 27 34; O S ">" 27 40]) (S 27 42) [(SExpr (ETry [] (ECall [] (EPath [] (mk_path false [mk_seg "fallible" [] (S 28 5)])) (S 28 13) [(ETuple [] (S 28 14) [] [])] []) (S 28 17)) (Some (S 28 18))); (SExpr (EIf [] [I S "if" 30 5] (ETry [] (ECall [] (EPath [] (mk_path false [mk_seg "fallible" [] (S 30 8)])) (S 30 16) [(EPath [] (mk_path false [mk_seg "false" [] (S 30 17)]))] []) (S 30 23)) (S 30 25) [(SExpr (EReturn [] (S 31 9) (Some (ECall [] (EPath [] (mk_path false [mk_seg "Err" [] (S 31 16)])) (S 31 19) [(EMethodCall [] (ELit [] (LStr "error") (S 31 20)) [O S "." 31 27; I S "into" 31 28] (S 31 32) [] [])] []))) (Some (S 31 35)))] [] None) None); (SExpr (EIf [] [I S "if" 34 5] (ETry [] (ECall [] (EPath [] (mk_path false [mk_seg "fallible" [] (S 34 8)])) (S 34 16) [(EPath [] (mk_path false [mk_seg "true" [] (S 34 17)]))] []) (S 34 22)) (S 34 24) [(SExpr (ECall [] (EPath [] (mk_path false [mk_seg "Ok" [] (S 35 9)])) (S 35 11) [(ETuple [] (S 35 12) [] [])] []) None)] [I S "else" 36 7] (Some (EBlock [] [] (S 36 12) [(SExpr (ECall [] (EPath [] (mk_path false [mk_seg "Err" [] (S 37 9)])) (S 37 12) [(EMethodCall [] (ELit [] (LStr "error") (S 37 13)) [O S "." 37 20; I S "into" 37 21] (S 37 25) [] [])] []) None)]))) None)]).
Definition args_hook_targets_main_1 : list meta := let S := at_ "mdbook-source-code/hook_targets/src/main.rs" in [].
Definition rec_hook_targets_main_1 : list string :=
  ["fn target_return ( ) - > Result < ( ) , String > { fallible ( ( ) ) ? ; if fallible ( false ) ? { return Err ( ""error"" . into ( ) ) . inspect_err ( |";
   "_ | ) ; } if fallible ( true ) ? { Ok ( ( ) ) } else { Err ( ""error"" . into ( ) ) } }"].
Definition it_hook_targets_main_2 : item := let S := at_ "mdbook-source-code/hook_targets/src/main.rs" in
  (IFn [mk_attr false (S 42 1) (MList (mk_path false [mk_seg "hooq" [] (S 42 3); mk_seg "method" [] (S 42 9)]) Parenth [O S "." 42 16; I S "inspect_err" 42 17; G S Parenth [O S "|" 42 29; I S "_" 42 30; O S "|" 42 31; G S Brace [] 42 33] 42 28] (S 42 15)); mk_attr false (S 43 1) (MList (mk_path false [mk_seg "hooq" [] (S 43 3); mk_seg "hook_targets" [] (S 43 9)]) Parenth [L S (LStr "tail_expr") 43 22] (S 43 21))] [] (mk_sig "target_tail_expr" (RetPath (mk_path false [mk_seg "Result" [O S "<" 44 32; G S Parenth [] 44 33; O S "," 44 35; I S "String" 44 37; O S ">" 44 43] (S 44 26)])) [I S "fn" 44 1; I S "target_tail_expr" 44 4; G S Parenth [] 44 20; O S "-" 44 23; O S ">" 44 24; I S "Result" 44 26; O S "<" 44 32; G S Parenth [] 44 33; O S "," 44 35; I S "String" 44 37; O S ">" 44 43]) (S 44 45) [(SExpr (ETry [] (ECall [] (EPath [] (mk_path false [mk_seg "fallible" [] (S 45 5)])) (S 45 13) [(ETuple [] (S 45 14) [] [])] []) (S 45 17)) (Some (S 45 18))); (SExpr (EIf [] [I S "if" 47 5] (ETry [] (ECall [] (EPath [] (mk_path false [mk_seg "fallible" [] (S 47 8)])) (S 47 16) [(EPath [] (mk_path false [mk_seg "false" [] (S 47 17)]))] []) (S 47 23)) (S 47 25) [(SExpr (EReturn [] (S 48 9) (Some (ECall [] (EPath [] (mk_path false [mk_seg "Err" [] (S 48 16)])) (S 48 19) [(EMethodCall [] (ELit [] (LStr "error") (S 48 20)) [O S "." 48 27; I S "into" 48 28] (S 48 32) [] [])] []))) (Some (S 48 35)))] [] None) None); (SExpr (EIf [] [I S "if" 51 5] (ETry [] (ECall [] (EPath [] (mk_path false [mk_seg "fallible" [] (S 51 8)])) (S 51 16) [(EPath [] (mk_path false [mk_seg "true" [] (S 51 17)]))] []) (S 51 22)) (S 51 24) [(SExpr (ECall [] (EPath [] (mk_path false [mk_seg "Ok" [] (S 52 9)])) (S 52 11) [(ETuple [] (S 52 12) [] [])] []) None)] [I S "else" 53 7] (Some (EBlock [] [] (S 53 12) [(SExpr (ECall [] (EPath [] (mk_path false [mk_seg "Err" [] (S 54 9)])) (S 54 12) [(EMethodCall [] (ELit [] (LStr "error") (S 54 13)) [O S "." 54 20; I S "into" 54 21] (S 54 25) [] [])] []) None)]))) None)]).
Definition args_hook_targets_main_2 : list meta := let S := at_ "mdbook-source-code/hook_targets/src/main.rs" in [].
Definition rec_hook_targets_main_2 : list string :=
  ["fn target_tail_expr ( ) - > Result < ( ) , String > { fallible ( ( ) ) ? ; if fallible ( false ) ? { return Err ( ""error"" . into ( ) ) ; } if fallible";
   "( true ) ? { Ok ( ( ) ) } else { Err ( ""error"" . into ( ) ) . inspect_err ( | _ | ) } . inspect_err ( | _ | ) }"].
(** target_question *)
Example recorded_hook_targets_main_0 : expanded su_hook_targets_main args_hook_targets_main_0 it_hook_targets_main_0 = words rec_hook_targets_main_0.
Proof. vm_compute. reflexivity. Qed.
(** target_return *)
Example recorded_hook_targets_main_1 : expanded su_hook_targets_main args_hook_targets_main_1 it_hook_targets_main_1 = words rec_hook_targets_main_1.
Proof. vm_compute. reflexivity. Qed.
(** target_tail_expr *)
Example recorded_hook_targets_main_2 : expanded su_hook_targets_main args_hook_targets_main_2 it_hook_targets_main_2 = words rec_hook_targets_main_2.
Proof. vm_compute. reflexivity. Qed.
(** ** mdbook-source-code/ignore_tail_expr_idents-warning/src/main.rs *)
Definition doc_ignore_tail_expr_idents_warning_main : list (string * ftable) := [].
Definition texts_ignore_tail_expr_idents_warning_main : list (string * list tt) := let S := at_ "" in [].
Definition strs_ignore_tail_expr_idents_warning_main : list (string * string) :=
  [("error !", "error!")].
Definition ends_ignore_tail_expr_idents_warning_main : list (N * N * (N * N * string)) :=
  [(3, 2, (3, 8, "")); (4, 2, (4, 38, "")); (4, 15, (4, 37, "")); (4, 28, (4, 36, "")); (4, 33, (4, 35, "")); (5, 8, (5, 10, "")); (5, 11, (17, 2, "")); (6, 26, (6, 28, "")); (6, 38, (6, 67, "")); (6, 43, (6, 65, "")); (6, 44, (6, 52, """error!""")); (6, 62, (6, 64, "")); (8, 6, (8, 44, "")); (8, 36, (8, 43, "")); (8, 37, (8, 42, """Err""")); (9, 26, (9, 28, "")); (9, 38, (9, 67, "")); (9, 43, (9, 65, "")); (9, 44, (9, 52, """error!""")); (9, 62, (9, 64, "")); (11, 6, (11, 38, "")); (11, 29, (11, 37, "")); (11, 30, (11, 36, """!Err""")); (12, 26, (12, 28, "")); (12, 38, (12, 67, "")); (12, 43, (12, 65, "")); (12, 44, (12, 52, """error!""")); (12, 62, (12, 64, "")); (14, 6, (14, 8, "")); (14, 19, (14, 21, "")); (15, 6, (15, 8, "")); (15, 19, (15, 21, "")); (16, 6, (16, 8, "")); (16, 19, (16, 21, ""))].
Definition su_ignore_tail_expr_idents_warning_main : setup := mk_setup (mk_features false false false false false "hooq") doc_ignore_tail_expr_idents_warning_main texts_ignore_tail_expr_idents_warning_main strs_ignore_tail_expr_idents_warning_main [] ends_ignore_tail_expr_idents_warning_main "main".
Definition it_ignore_tail_expr_idents_warning_main_0 : item := let S := at_ "mdbook-source-code/ignore_tail_expr_idents-warning/src/main.rs" in
  (IFn [mk_attr false (S 4 1) (MList (mk_path false [mk_seg "hooq" [] (S 4 3); mk_seg "method" [] (S 4 9)]) Parenth [O S "." 4 16; I S "inspect_err" 4 17; G S Parenth [O S "|" 4 29; I S "_" 4 30; O S "|" 4 31; G S Brace [] 4 33] 4 28] (S 4 15))] [] (mk_sig "main" RetNone [I S "fn" 5 1; I S "main" 5 4; G S Parenth [] 5 8]) (S 5 11) [(SLocalInit [] [I S "let" 6 5; I S "f" 6 9; O S "=" 6 11] (EClosure [] [O S "|" 6 13; O S "|" 6 14; O S "-" 6 16; O S ">" 6 17; I S "Result" 6 19; O S "<" 6 25; G S Parenth [] 6 26; O S "," 6 28; I S "String" 6 30; O S ">" 6 36] (RetPath (mk_path false [mk_seg "Result" [O S "<" 6 25; G S Parenth [] 6 26; O S "," 6 28; I S "String" 6 30; O S ">" 6 36] (S 6 19)])) (EBlock [] [] (S 6 38) [(SExpr (ECall [] (EPath [] (mk_path false [mk_seg "Err" [] (S 6 40)])) (S 6 43) [(EMethodCall [] (ELit [] (LStr "error!") (S 6 44)) [O S "." 6 52; I S "to_string" 6 53] (S 6 62) [] [])] []) None)])) [] None [O S ";" 6 67]); (SLocalInit [mk_attr false (S 8 5) (MList (mk_path false [mk_seg "hooq" [] (S 8 7); mk_seg "ignore_tail_expr_idents" [] (S 8 13)]) Parenth [L S (LStr "Err") 8 37] (S 8 36))] [I S "let" 9 5; I S "g" 9 9; O S "=" 9 11] (EClosure [] [O S "|" 9 13; O S "|" 9 14; O S "-" 9 16; O S ">" 9 17; I S "Result" 9 19; O S "<" 9 25; G S Parenth [] 9 26; O S "," 9 28; I S "String" 9 30; O S ">" 9 36] (RetPath (mk_path false [mk_seg "Result" [O S "<" 9 25; G S Parenth [] 9 26; O S "," 9 28; I S "String" 9 30; O S ">" 9 36] (S 9 19)])) (EBlock [] [] (S 9 38) [(SExpr (ECall [] (EPath [] (mk_path false [mk_seg "Err" [] (S 9 40)])) (S 9 43) [(EMethodCall [] (ELit [] (LStr "error!") (S 9 44)) [O S "." 9 52; I S "to_string" 9 53] (S 9 62) [] [])] []) None)])) [] None [O S ";" 9 67]); (SLocalInit [mk_attr false (S 11 5) (MList (mk_path false [mk_seg "hooq" [] (S 11 7); mk_seg "tail_expr_idents" [] (S 11 13)]) Parenth [L S (LStr "!Err") 11 30] (S 11 29))] [I S "let" 12 5; I S "h" 12 9; O S "=" 12 11] (EClosure [] [O S "|" 12 13; O S "|" 12 14; O S "-" 12 16; O S ">" 12 17; I S "Result" 12 19; O S "<" 12 25; G S Parenth [] 12 26; O S "," 12 28; I S "String" 12 30; O S ">" 12 36] (RetPath (mk_path false [mk_seg "Result" [O S "<" 12 25; G S Parenth [] 12 26; O S "," 12 28; I S "String" 12 30; O S ">" 12 36] (S 12 19)])) (EBlock [] [] (S 12 38) [(SExpr (ECall [] (EPath [] (mk_path false [mk_seg "Err" [] (S 12 40)])) (S 12 43) [(EMethodCall [] (ELit [] (LStr "error!") (S 12 44)) [O S "." 12 52; I S "to_string" 12 53] (S 12 62) [] [])] []) None)])) [] None [O S ";" 12 67]); (SExpr (EMethodCall [] (ECall [] (EPath [] (mk_path false [mk_seg "f" [] (S 14 5)])) (S 14 6) [] []) [O S "." 14 8; I S "unwrap_err" 14 9] (S 14 19) [] []) (Some (S 14 21))); (SExpr (EMethodCall [] (ECall [] (EPath [] (mk_path false [mk_seg "g" [] (S 15 5)])) (S 15 6) [] []) [O S "." 15 8; I S "unwrap_err" 15 9] (S 15 19) [] []) (Some (S 15 21))); (SExpr (EMethodCall [] (ECall [] (EPath [] (mk_path false [mk_seg "h" [] (S 16 5)])) (S 16 6) [] []) [O S "." 16 8; I S "unwrap_err" 16 9] (S 16 19) [] []) (Some (S 16 21)))]).
Definition args_ignore_tail_expr_idents_warning_main_0 : list meta := let S := at_ "mdbook-source-code/ignore_tail_expr_idents-warning/src/main.rs" in [].
Definition rec_ignore_tail_expr_idents_warning_main_0 : list string :=
  ["fn main ( ) { let f = | | - > Result < ( ) , String > { Err ( ""error!"" . to_string ( ) ) . inspect_err ( | _ | ) } ; let g = | | - > Result < ( ) ,";
   "String > { Err ( ""error!"" . to_string ( ) ) . inspect_err ( | _ | ) } ; let h = | | - > Result < ( ) , String > { Err ( ""error!"" . to_string ( ) ) } ;";
   "f ( ) . unwrap_err ( ) ; g ( ) . unwrap_err ( ) ; h ( ) . unwrap_err ( ) ; }"].
(** main *)
Example recorded_ignore_tail_expr_idents_warning_main_0 : expanded su_ignore_tail_expr_idents_warning_main args_ignore_tail_expr_idents_warning_main_0 it_ignore_tail_expr_idents_warning_main_0 = words rec_ignore_tail_expr_idents_warning_main_0.
Proof. vm_compute. reflexivity. Qed.
(** ** mdbook-source-code/ignore_tail_expr_idents/src/main.rs *)
Definition doc_ignore_tail_expr_idents_main : list (string * ftable) := [].
Definition texts_ignore_tail_expr_idents_main : list (string * list tt) := let S := at_ "" in [].
Definition strs_ignore_tail_expr_idents_main : list (string * string) :=
  [].
Definition ends_ignore_tail_expr_idents_main : list (N * N * (N * N * string)) :=
  [(3, 15, (3, 23, "")); (3, 45, (5, 2, "")); (4, 7, (4, 12, "")); (7, 2, (7, 8, "")); (8, 2, (8, 38, "")); (8, 15, (8, 37, "")); (8, 28, (8, 36, "")); (8, 33, (8, 35, "")); (9, 8, (9, 10, "")); (9, 11, (21, 2, "")); (10, 26, (10, 28, "")); (10, 38, (10, 54, "")); (10, 48, (10, 52, "")); (10, 49, (10, 51, "")); (12, 6, (12, 49, "")); (12, 36, (12, 48, "")); (12, 37, (12, 47, """fallible""")); (13, 26, (13, 28, "")); (13, 38, (13, 54, "")); (13, 48, (13, 52, "")); (13, 49, (13, 51, "")); (15, 6, (15, 43, "")); (15, 29, (15, 42, "")); (15, 30, (15, 41, """!fallible""")); (16, 26, (16, 28, "")); (16, 38, (16, 54, "")); (16, 48, (16, 52, "")); (16, 49, (16, 51, "")); (18, 6, (18, 8, "")); (18, 15, (18, 17, "")); (19, 6, (19, 8, "")); (19, 15, (19, 17, "")); (20, 6, (20, 8, "")); (20, 15, (20, 17, ""))].
Definition su_ignore_tail_expr_idents_main : setup := mk_setup (mk_features false false false false false "hooq") doc_ignore_tail_expr_idents_main texts_ignore_tail_expr_idents_main strs_ignore_tail_expr_idents_main [] ends_ignore_tail_expr_idents_main "main".
Definition it_ignore_tail_expr_idents_main_0 : item := let S := at_ "mdbook-source-code/ignore_tail_expr_idents/src/main.rs" in
  (IFn [mk_attr false (S 8 1) (MList (mk_path false [mk_seg "hooq" [] (S 8 3); mk_seg "method" [] (S 8 9)]) Parenth [O S "." 8 16; I S "inspect_err" 8 17; G S Parenth [O S "|" 8 29; I S "_" 8 30; O S "|" 8 31; G S Brace [] 8 33] 8 28] (S 8 15))] [] (mk_sig "main" RetNone [I S "fn" 9 1; I S "main" 9 4; G S Parenth [] 9 8]) (S 9 11) [(SLocalInit [] [I S "let" 10 5; I S "f" 10 9; O S "=" 10 11] (EClosure [] [O S "|" 10 13; O S "|" 10 14; O S "-" 10 16; O S ">" 10 17; I S "Result" 10 19; O S "<" 10 25; G S Parenth [] 10 26; O S "," 10 28; I S "String" 10 30; O S ">" 10 36] (RetPath (mk_path false [mk_seg "Result" [O S "<" 10 25; G S Parenth [] 10 26; O S "," 10 28; I S "String" 10 30; O S ">" 10 36] (S 10 19)])) (EBlock [] [] (S 10 38) [(SExpr (ECall [] (EPath [] (mk_path false [mk_seg "fallible" [] (S 10 40)])) (S 10 48) [(ETuple [] (S 10 49) [] [])] []) None)])) [] None [O S ";" 10 54]); (SLocalInit [mk_attr false (S 12 5) (MList (mk_path false [mk_seg "hooq" [] (S 12 7); mk_seg "ignore_tail_expr_idents" [] (S 12 13)]) Parenth [L S (LStr "fallible") 12 37] (S 12 36))] [I S "let" 13 5; I S "g" 13 9; O S "=" 13 11] (EClosure [] [O S "|" 13 13; O S "|" 13 14; O S "-" 13 16; O S ">" 13 17; I S "Result" 13 19; O S "<" 13 25; G S Parenth [] 13 26; O S "," 13 28; I S "String" 13 30; O S ">" 13 36] (RetPath (mk_path false [mk_seg "Result" [O S "<" 13 25; G S Parenth [] 13 26; O S "," 13 28; I S "String" 13 30; O S ">" 13 36] (S 13 19)])) (EBlock [] [] (S 13 38) [(SExpr (ECall [] (EPath [] (mk_path false [mk_seg "fallible" [] (S 13 40)])) (S 13 48) [(ETuple [] (S 13 49) [] [])] []) None)])) [] None [O S ";" 13 54]); (SLocalInit [mk_attr false (S 15 5) (MList (mk_path false [mk_seg "hooq" [] (S 15 7); mk_seg "tail_expr_idents" [] (S 15 13)]) Parenth [L S (LStr "!fallible") 15 30] (S 15 29))] [I S "let" 16 5; I S "h" 16 9; O S "=" 16 11] (EClosure [] [O S "|" 16 13; O S "|" 16 14; O S "-" 16 16; O S ">" 16 17; I S "Result" 16 19; O S "<" 16 25; G S Parenth [] 16 26; O S "," 16 28; I S "String" 16 30; O S ">" 16 36] (RetPath (mk_path false [mk_seg "Result" [O S "<" 16 25; G S Parenth [] 16 26; O S "," 16 28; I S "String" 16 30; O S ">" 16 36] (S 16 19)])) (EBlock [] [] (S 16 38) [(SExpr (ECall [] (EPath [] (mk_path false [mk_seg "fallible" [] (S 16 40)])) (S 16 48) [(ETuple [] (S 16 49) [] [])] []) None)])) [] None [O S ";" 16 54]); (SExpr (EMethodCall [] (ECall [] (EPath [] (mk_path false [mk_seg "f" [] (S 18 5)])) (S 18 6) [] []) [O S "." 18 8; I S "unwrap" 18 9] (S 18 15) [] []) (Some (S 18 17))); (SExpr (EMethodCall [] (ECall [] (EPath [] (mk_path false [mk_seg "g" [] (S 19 5)])) (S 19 6) [] []) [O S "." 19 8; I S "unwrap" 19 9] (S 19 15) [] []) (Some (S 19 17))); (SExpr (EMethodCall [] (ECall [] (EPath [] (mk_path false [mk_seg "h" [] (S 20 5)])) (S 20 6) [] []) [O S "." 20 8; I S "unwrap" 20 9] (S 20 15) [] []) (Some (S 20 17)))]).
Definition args_ignore_tail_expr_idents_main_0 : list meta := let S := at_ "mdbook-source-code/ignore_tail_expr_idents/src/main.rs" in [].
Definition rec_ignore_tail_expr_idents_main_0 : list string :=
  ["fn main ( ) { let f = | | - > Result < ( ) , String > { fallible ( ( ) ) . inspect_err ( | _ | ) } ; let g = | | - > Result < ( ) , String > {";
   "fallible ( ( ) ) } ; let h = | | - > Result < ( ) , String > { fallible ( ( ) ) } ; f ( ) . unwrap ( ) ; g ( ) . unwrap ( ) ; h ( ) . unwrap ( ) ; }"].
(** main *)
Example recorded_ignore_tail_expr_idents_main_0 : expanded su_ignore_tail_expr_idents_main args_ignore_tail_expr_idents_main_0 it_ignore_tail_expr_idents_main_0 = words rec_ignore_tail_expr_idents_main_0.
Proof. vm_compute. reflexivity. Qed.
(** ** mdbook-source-code/meta-vars-all/src/main.rs *)
Definition doc_meta_vars_all_main : list (string * ftable) := [].
Definition texts_meta_vars_all_main : list (string * list tt) := let S := at_ "" in [].
Definition strs_meta_vars_all_main : list (string * string) :=
  [("""user\sdefined\sbinding.""", """user defined binding.""");
   ("fallible ( ( ) ) ?", "fallible(()) ?");
   ("fn main ( ) - > Result < ( ) , Box < dyn std : : error : : Error > >", "fn main() -> Result < (), Box < dyn std :: error :: Error > >");
   ("main . rs", "main.rs");
   ("mdbook - source - code / meta - vars - all / src / main . rs", "mdbook-source-code/meta-vars-all/src/main.rs");
   ("user defined binding .", "user defined binding.")].
Definition ends_meta_vars_all_main : list (N * N * (N * N * string)) :=
  [(3, 15, (3, 23, "")); (3, 45, (5, 2, "")); (4, 7, (4, 12, "")); (7, 2, (7, 8, "")); (8, 2, (8, 39, "")); (8, 15, (8, 38, """user defined binding.""")); (9, 2, (26, 5, "")); (9, 15, (26, 4, "")); (9, 28, (26, 3, "")); (9, 33, (26, 2, "")); (15, 29, (15, 38, "")); (27, 8, (27, 10, "")); (27, 21, (27, 23, "")); (27, 53, (31, 2, "")); (28, 13, (28, 17, "")); (28, 14, (28, 16, "")); (30, 7, (30, 11, "")); (30, 8, (30, 10, ""))].
Definition su_meta_vars_all_main : setup := mk_setup (mk_features false false false false false "hooq") doc_meta_vars_all_main texts_meta_vars_all_main strs_meta_vars_all_main [] ends_meta_vars_all_main "main".
Definition it_meta_vars_all_main_0 : item := let S := at_ "mdbook-source-code/meta-vars-all/src/main.rs" in
  (IFn [mk_attr false (S 8 1) (MNameValue (mk_path false [mk_seg "hooq" [] (S 8 3); mk_seg "xxx" [] (S 8 9)]) (VStr "user defined binding." (S 8 15))); mk_attr false (S 9 1) (MList (mk_path false [mk_seg "hooq" [] (S 9 3); mk_seg "method" [] (S 9 9)]) Parenth [O S "." 9 16; I S "inspect_err" 9 17; G S Parenth [O S "|" 9 29; I S "_" 9 30; O S "|" 9 31; G S Brace [I S "let" 11 5; I S "_line" 11 9; O S "=" 11 15; O S "$" 11 17; I S "line" 11 18; O S ";" 11 22; I S "let" 12 5; I S "_column" 12 9; O S "=" 12 17; O S "$" 12 19; I S "column" 12 20; O S ";" 12 26; I S "let" 13 5; I S "_path" 13 9; O S "=" 13 15; O S "$" 13 17; I S "path" 13 18; O S ";" 13 22; I S "let" 14 5; I S "_file" 14 9; O S "=" 14 15; O S "$" 14 17; I S "file" 14 18; O S ";" 14 22; I S "let" 15 5; I S "_source" 15 9; O S "=" 15 17; I S "stringify" 15 19; O S "!" 15 28; G S Parenth [O S "$" 15 30; I S "source" 15 31] 15 29; O S ";" 15 38; I S "let" 16 5; I S "_count" 16 9; O S "=" 16 16; O S "$" 16 18; I S "count" 16 19; O S ";" 16 24; I S "let" 17 5; I S "_fn_name" 17 9; O S "=" 17 18; O S "$" 17 20; I S "fn_name" 17 21; O S ";" 17 28; I S "let" 18 5; I S "_fn_sig" 18 9; O S "=" 18 17; O S "$" 18 19; I S "fn_sig" 18 20; O S ";" 18 26; I S "let" 21 5; I S "_xxx" 21 9; O S "=" 21 14; O S "$" 21 16; I S "xxx" 21 17; O S ";" 21 20; I S "let" 22 5; I S "_bindings" 22 9; O S "=" 22 19; O S "$" 22 21; I S "bindings" 22 22; O S ";" 22 30; I S "let" 25 5; I S "_hooq_meta" 25 9; O S "=" 25 20; O S "$" 25 22; I S "hooq_meta" 25 23; O S ";" 25 32] 9 33] 9 28] (S 9 15))] [] (mk_sig "main" (RetPath (mk_path false [mk_seg "Result" [O S "<" 27 20; G S Parenth [] 27 21; O S "," 27 23; I S "Box" 27 25; O S "<" 27 28; I S "dyn" 27 29; I S "std" 27 33; O S ":" 27 36; O S ":" 27 37; I S "error" 27 38; O S ":" 27 43; O S ":" 27 44; I S "Error" 27 45; O S ">" 27 50; O S ">" 27 51] (S 27 14)])) [I S "fn" 27 1; I S "main" 27 4; G S Parenth [] 27 8; O S "-" 27 11; O S ">" 27 12; I S "Result" 27 14; O S "<" 27 20; G S Parenth [] 27 21; O S "," 27 23; I S "Box" 27 25; O S "<" 27 28; I S "dyn" 27 29; I S "std" 27 33; O S ":" 27 36; O S ":" 27 37; I S "error" 27 38; O S ":" 27 43; O S ":" 27 44; I S "Error" 27 45; O S ">" 27 50; O S ">" 27 51]) (S 27 53) [(SExpr (ETry [] (ECall [] (EPath [] (mk_path false [mk_seg "fallible" [] (S 28 5)])) (S 28 13) [(ETuple [] (S 28 14) [] [])] []) (S 28 17)) (Some (S 28 18))); (SExpr (ECall [] (EPath [] (mk_path false [mk_seg "Ok" [] (S 30 5)])) (S 30 7) [(ETuple [] (S 30 8) [] [])] []) None)]).
Definition args_meta_vars_all_main_0 : list meta := let S := at_ "mdbook-source-code/meta-vars-all/src/main.rs" in [].
Definition rec_meta_vars_all_main_0 : list string :=
  ["fn main ( ) - > Result < ( ) , Box < dyn std : : error : : Error > > { fallible ( ( ) ) . inspect_err ( | _ | { let _line = 28usize ; let _column =";
   "17usize ; let _path = ""mdbook-source-code/meta-vars-all/src/main.rs"" ; let _file = ""main.rs"" ; let _source = ""fallible(())\s?"" ; let _count = ""1st\s?""";
   "; let _fn_name = ""main"" ; let _fn_sig = ""fn\smain()\s->\sResult\s<\s(),\sBox\s<\sdyn\sstd\s::\serror\s::\sError\s>\s>"" ; let _xxx =";
   """user\sdefined\sbinding."" ; let _bindings = : : std : : collections : : HashMap : : from ( [ ( : : std : : string : : ToString : : to_string ( ""xxx"" )";
   ", { let expr = : : std : : string : : ToString : : to_string ( ""\""user\sdefined\sbinding.\"""" ) ; let value : : : std : : rc : : Rc < dyn : : std : :";
   "any : : Any > = : : std : : rc : : Rc : : new ( ""user\sdefined\sbinding."" ) ; : : hooq : : BindingPayload { expr , value } } ) ] ) ; let _hooq_meta =";
   ": : hooq : : HooqMeta { line : 28usize , column : 17usize , path : ""mdbook-source-code/meta-vars-all/src/main.rs"" , file : ""main.rs"" , source_str :";
   """fallible(())\s?"" , count : ""1st\s?"" , bindings : : : std : : collections : : HashMap : : from ( [ ( : : std : : string : : ToString : : to_string (";
   """xxx"" ) , { let expr = : : std : : string : : ToString : : to_string ( ""\""user\sdefined\sbinding.\"""" ) ; let value : : : std : : rc : : Rc < dyn : :";
   "std : : any : : Any > = : : std : : rc : : Rc : : new ( ""user\sdefined\sbinding."" ) ; : : hooq : : BindingPayload { expr , value } } ) ] ) } ; } ) ? ;";
   "Ok ( ( ) ) }"].
(** main *)
Example recorded_meta_vars_all_main_0 : expanded su_meta_vars_all_main args_meta_vars_all_main_0 it_meta_vars_all_main_0 = words rec_meta_vars_all_main_0.
Proof. vm_compute. reflexivity. Qed.
(** ** mdbook-source-code/meta-vars-binding/src/main.rs *)
Definition doc_meta_vars_binding_main : list (string * ftable) := [].
Definition texts_meta_vars_binding_main : list (string * list tt) := let S := at_ "" in [].
Definition strs_meta_vars_binding_main : list (string * string) :=
  [("hello !", "hello!")].
Definition ends_meta_vars_binding_main : list (N * N * (N * N * string)) :=
  [(3, 15, (3, 23, "")); (3, 45, (5, 2, "")); (4, 7, (4, 12, "")); (7, 16, (10, 2, "")); (12, 2, (12, 8, "")); (14, 2, (14, 27, "")); (14, 18, (14, 26, """hello!""")); (15, 2, (15, 22, "")); (16, 2, (16, 40, "")); (17, 2, (21, 5, "")); (17, 15, (21, 4, "")); (17, 28, (21, 3, "")); (17, 33, (21, 2, "")); (22, 8, (22, 10, "")); (22, 21, (22, 23, "")); (22, 53, (30, 2, "")); (23, 13, (23, 17, "")); (23, 14, (23, 16, "")); (26, 6, (26, 46, "")); (27, 13, (27, 17, "")); (27, 14, (27, 16, "")); (29, 7, (29, 11, "")); (29, 8, (29, 10, ""))].
Definition su_meta_vars_binding_main : setup := mk_setup (mk_features false false false false false "hooq") doc_meta_vars_binding_main texts_meta_vars_binding_main strs_meta_vars_binding_main [] ends_meta_vars_binding_main "main".
Definition it_meta_vars_binding_main_0 : item := let S := at_ "mdbook-source-code/meta-vars-binding/src/main.rs" in
  (IFn [mk_attr false (S 14 1) (MNameValue (mk_path false [mk_seg "hooq" [] (S 14 3); mk_seg "string" [] (S 14 9)]) (VStr "hello!" (S 14 18))); mk_attr false (S 15 1) (MNameValue (mk_path false [mk_seg "hooq" [] (S 15 3); mk_seg "integer" [] (S 15 9)]) (VOther [L S (LOther "10") 15 19])); mk_attr false (S 16 1) (MNameValue (mk_path false [mk_seg "hooq" [] (S 16 3); mk_seg "cause_kind" [] (S 16 9)]) (VPath (mk_path false [mk_seg "CauseKind" [] (S 16 22); mk_seg "Server" [] (S 16 33)]))); mk_attr false (S 17 1) (MList (mk_path false [mk_seg "hooq" [] (S 17 3); mk_seg "method" [] (S 17 9)]) Parenth [O S "." 17 16; I S "inspect_err" 17 17; G S Parenth [O S "|" 17 29; I S "_" 17 30; O S "|" 17 31; G S Brace [I S "let" 18 5; I S "_string" 18 9; O S "=" 18 17; O S "$" 18 19; I S "string" 18 20; O S ";" 18 26; I S "let" 19 5; I S "_integer" 19 9; O S "=" 19 18; O S "$" 19 20; I S "integer" 19 21; O S ";" 19 28; I S "let" 20 5; I S "_cause_kind" 20 9; O S "=" 20 21; O S "$" 20 23; I S "cause_kind" 20 24; O S ";" 20 34] 17 33] 17 28] (S 17 15))] [] (mk_sig "main" (RetPath (mk_path false [mk_seg "Result" [O S "<" 22 20; G S Parenth [] 22 21; O S "," 22 23; I S "Box" 22 25; O S "<" 22 28; I S "dyn" 22 29; I S "std" 22 33; O S ":" 22 36; O S ":" 22 37; I S "error" 22 38; O S ":" 22 43; O S ":" 22 44; I S "Error" 22 45; O S ">" 22 50; O S ">" 22 51] (S 22 14)])) [I S "fn" 22 1; I S "main" 22 4; G S Parenth [] 22 8; O S "-" 22 11; O S ">" 22 12; I S "Result" 22 14; O S "<" 22 20; G S Parenth [] 22 21; O S "," 22 23; I S "Box" 22 25; O S "<" 22 28; I S "dyn" 22 29; I S "std" 22 33; O S ":" 22 36; O S ":" 22 37; I S "error" 22 38; O S ":" 22 43; O S ":" 22 44; I S "Error" 22 45; O S ">" 22 50; O S ">" 22 51]) (S 22 53) [(SExpr (ETry [] (ECall [] (EPath [] (mk_path false [mk_seg "fallible" [] (S 23 5)])) (S 23 13) [(ETuple [] (S 23 14) [] [])] []) (S 23 17)) (Some (S 23 18))); (SExpr (ETry [mk_attr false (S 26 5) (MNameValue (mk_path false [mk_seg "hooq" [] (S 26 7); mk_seg "cause_kind" [] (S 26 13)]) (VPath (mk_path false [mk_seg "CauseKind" [] (S 26 26); mk_seg "DataBase" [] (S 26 37)])))] (ECall [] (EPath [] (mk_path false [mk_seg "fallible" [] (S 27 5)])) (S 27 13) [(ETuple [] (S 27 14) [] [])] []) (S 27 17)) (Some (S 27 18))); (SExpr (ECall [] (EPath [] (mk_path false [mk_seg "Ok" [] (S 29 5)])) (S 29 7) [(ETuple [] (S 29 8) [] [])] []) None)]).
Definition args_meta_vars_binding_main_0 : list meta := let S := at_ "mdbook-source-code/meta-vars-binding/src/main.rs" in [].
Definition rec_meta_vars_binding_main_0 : list string :=
  ["fn main ( ) - > Result < ( ) , Box < dyn std : : error : : Error > > { fallible ( ( ) ) . inspect_err ( | _ | { let _string = ""hello!"" ; let _integer";
   "= 10 ; let _cause_kind = CauseKind : : Server ; } ) ? ; fallible ( ( ) ) . inspect_err ( | _ | { let _string = ""hello!"" ; let _integer = 10 ; let";
   "_cause_kind = CauseKind : : DataBase ; } ) ? ; Ok ( ( ) ) }"].
(** main *)
Example recorded_meta_vars_binding_main_0 : expanded su_meta_vars_binding_main args_meta_vars_binding_main_0 it_meta_vars_binding_main_0 = words rec_meta_vars_binding_main_0.
Proof. vm_compute. reflexivity. Qed.
(** ** mdbook-source-code/meta-vars-bindings/src/main.rs *)
Definition doc_meta_vars_bindings_main : list (string * ftable) := [].
Definition texts_meta_vars_bindings_main : list (string * list tt) := let S := at_ "" in [].
Definition strs_meta_vars_bindings_main : list (string * string) :=
  [("CauseKind : : Server", "CauseKind :: Server");
   ("hello !", "hello!")].
Definition ends_meta_vars_bindings_main : list (N * N * (N * N * string)) :=
  [(3, 15, (3, 23, "")); (3, 45, (5, 2, "")); (4, 7, (4, 12, "")); (7, 16, (11, 2, "")); (8, 6, (8, 21, "")); (8, 12, (8, 20, "")); (13, 2, (13, 8, "")); (15, 2, (15, 27, "")); (15, 18, (15, 26, """hello!""")); (16, 2, (16, 22, "")); (17, 2, (17, 40, "")); (18, 2, (20, 5, "")); (18, 15, (20, 4, "")); (18, 28, (20, 3, "")); (18, 33, (20, 2, "")); (21, 8, (21, 10, "")); (21, 21, (21, 23, "")); (21, 53, (25, 2, "")); (22, 13, (22, 17, "")); (22, 14, (22, 16, "")); (24, 7, (24, 11, "")); (24, 8, (24, 10, ""))].
Definition su_meta_vars_bindings_main : setup := mk_setup (mk_features false false false false false "hooq") doc_meta_vars_bindings_main texts_meta_vars_bindings_main strs_meta_vars_bindings_main [] ends_meta_vars_bindings_main "main".
Definition it_meta_vars_bindings_main_0 : item := let S := at_ "mdbook-source-code/meta-vars-bindings/src/main.rs" in
  (IFn [mk_attr false (S 15 1) (MNameValue (mk_path false [mk_seg "hooq" [] (S 15 3); mk_seg "string" [] (S 15 9)]) (VStr "hello!" (S 15 18))); mk_attr false (S 16 1) (MNameValue (mk_path false [mk_seg "hooq" [] (S 16 3); mk_seg "integer" [] (S 16 9)]) (VOther [L S (LOther "10") 16 19])); mk_attr false (S 17 1) (MNameValue (mk_path false [mk_seg "hooq" [] (S 17 3); mk_seg "cause_kind" [] (S 17 9)]) (VPath (mk_path false [mk_seg "CauseKind" [] (S 17 22); mk_seg "Server" [] (S 17 33)]))); mk_attr false (S 18 1) (MList (mk_path false [mk_seg "hooq" [] (S 18 3); mk_seg "method" [] (S 18 9)]) Parenth [O S "." 18 16; I S "inspect_err" 18 17; G S Parenth [O S "|" 18 29; I S "_" 18 30; O S "|" 18 31; G S Brace [I S "let" 19 5; I S "_bindings" 19 9; O S "=" 19 19; O S "$" 19 21; I S "bindings" 19 22; O S ";" 19 30] 18 33] 18 28] (S 18 15))] [] (mk_sig "main" (RetPath (mk_path false [mk_seg "Result" [O S "<" 21 20; G S Parenth [] 21 21; O S "," 21 23; I S "Box" 21 25; O S "<" 21 28; I S "dyn" 21 29; I S "std" 21 33; O S ":" 21 36; O S ":" 21 37; I S "error" 21 38; O S ":" 21 43; O S ":" 21 44; I S "Error" 21 45; O S ">" 21 50; O S ">" 21 51] (S 21 14)])) [I S "fn" 21 1; I S "main" 21 4; G S Parenth [] 21 8; O S "-" 21 11; O S ">" 21 12; I S "Result" 21 14; O S "<" 21 20; G S Parenth [] 21 21; O S "," 21 23; I S "Box" 21 25; O S "<" 21 28; I S "dyn" 21 29; I S "std" 21 33; O S ":" 21 36; O S ":" 21 37; I S "error" 21 38; O S ":" 21 43; O S ":" 21 44; I S "Error" 21 45; O S ">" 21 50; O S ">" 21 51]) (S 21 53) [(SExpr (ETry [] (ECall [] (EPath [] (mk_path false [mk_seg "fallible" [] (S 22 5)])) (S 22 13) [(ETuple [] (S 22 14) [] [])] []) (S 22 17)) (Some (S 22 18))); (SExpr (ECall [] (EPath [] (mk_path false [mk_seg "Ok" [] (S 24 5)])) (S 24 7) [(ETuple [] (S 24 8) [] [])] []) None)]).
Definition args_meta_vars_bindings_main_0 : list meta := let S := at_ "mdbook-source-code/meta-vars-bindings/src/main.rs" in [].
Definition rec_meta_vars_bindings_main_0 : list string :=
  ["fn main ( ) - > Result < ( ) , Box < dyn std : : error : : Error > > { fallible ( ( ) ) . inspect_err ( | _ | { let _bindings = : : std : :";
   "collections : : HashMap : : from ( [ ( : : std : : string : : ToString : : to_string ( ""cause_kind"" ) , { let expr = : : std : : string : : ToString :";
   ": to_string ( ""CauseKind\s::\sServer"" ) ; let value : : : std : : rc : : Rc < dyn : : std : : any : : Any > = : : std : : rc : : Rc : : new (";
   "CauseKind : : Server ) ; : : hooq : : BindingPayload { expr , value } } ) , ( : : std : : string : : ToString : : to_string ( ""integer"" ) , { let expr";
   "= : : std : : string : : ToString : : to_string ( ""10"" ) ; let value : : : std : : rc : : Rc < dyn : : std : : any : : Any > = : : std : : rc : : Rc :";
   ": new ( 10 ) ; : : hooq : : BindingPayload { expr , value } } ) , ( : : std : : string : : ToString : : to_string ( ""string"" ) , { let expr = : : std";
   ": : string : : ToString : : to_string ( ""\""hello!\"""" ) ; let value : : : std : : rc : : Rc < dyn : : std : : any : : Any > = : : std : : rc : : Rc : :";
   "new ( ""hello!"" ) ; : : hooq : : BindingPayload { expr , value } } ) ] ) ; } ) ? ; Ok ( ( ) ) }"].
(** main *)
Example recorded_meta_vars_bindings_main_0 : expanded su_meta_vars_bindings_main args_meta_vars_bindings_main_0 it_meta_vars_bindings_main_0 = words rec_meta_vars_bindings_main_0.
Proof. vm_compute. reflexivity. Qed.
(** ** mdbook-source-code/meta-vars-column/src/main.rs *)
Definition doc_meta_vars_column_main : list (string * ftable) := [].
Definition texts_meta_vars_column_main : list (string * list tt) := let S := at_ "" in [].
Definition strs_meta_vars_column_main : list (string * string) :=
  [].
Definition ends_meta_vars_column_main : list (N * N * (N * N * string)) :=
  [(3, 15, (3, 23, "")); (3, 45, (5, 2, "")); (4, 7, (4, 12, "")); (7, 2, (7, 8, "")); (8, 2, (10, 5, "")); (8, 15, (10, 4, "")); (8, 28, (10, 3, "")); (8, 33, (10, 2, "")); (11, 8, (11, 10, "")); (11, 21, (11, 23, "")); (11, 53, (15, 2, "")); (12, 13, (12, 17, "")); (12, 14, (12, 16, "")); (14, 7, (14, 11, "")); (14, 8, (14, 10, ""))].
Definition su_meta_vars_column_main : setup := mk_setup (mk_features false false false false false "hooq") doc_meta_vars_column_main texts_meta_vars_column_main strs_meta_vars_column_main [] ends_meta_vars_column_main "main".
Definition it_meta_vars_column_main_0 : item := let S := at_ "mdbook-source-code/meta-vars-column/src/main.rs" in
  (IFn [mk_attr false (S 8 1) (MList (mk_path false [mk_seg "hooq" [] (S 8 3); mk_seg "method" [] (S 8 9)]) Parenth [O S "." 8 16; I S "inspect_err" 8 17; G S Parenth [O S "|" 8 29; I S "_" 8 30; O S "|" 8 31; G S Brace [I S "let" 9 5; I S "_column" 9 9; O S "=" 9 17; O S "$" 9 19; I S "column" 9 20; O S ";" 9 26] 8 33] 8 28] (S 8 15))] [] (mk_sig "main" (RetPath (mk_path false [mk_seg "Result" [O S "<" 11 20; G S Parenth [] 11 21; O S "," 11 23; I S "Box" 11 25; O S "<" 11 28; I S "dyn" 11 29; I S "std" 11 33; O S ":" 11 36; O S ":" 11 37; I S "error" 11 38; O S ":" 11 43; O S ":" 11 44; I S "Error" 11 45; O S ">" 11 50; O S ">" 11 51] (S 11 14)])) [I S "fn" 11 1; I S "main" 11 4; G S Parenth [] 11 8; O S "-" 11 11; O S ">" 11 12; I S "Result" 11 14; O S "<" 11 20; G S Parenth [] 11 21; O S "," 11 23; I S "Box" 11 25; O S "<" 11 28; I S "dyn" 11 29; I S "std" 11 33; O S ":" 11 36; O S ":" 11 37; I S "error" 11 38; O S ":" 11 43; O S ":" 11 44; I S "Error" 11 45; O S ">" 11 50; O S ">" 11 51]) (S 11 53) [(SExpr (ETry [] (ECall [] (EPath [] (mk_path false [mk_seg "fallible" [] (S 12 5)])) (S 12 13) [(ETuple [] (S 12 14) [] [])] []) (S 12 17)) (Some (S 12 18))); (SExpr (ECall [] (EPath [] (mk_path false [mk_seg "Ok" [] (S 14 5)])) (S 14 7) [(ETuple [] (S 14 8) [] [])] []) None)]).
Definition args_meta_vars_column_main_0 : list meta := let S := at_ "mdbook-source-code/meta-vars-column/src/main.rs" in [].
Definition rec_meta_vars_column_main_0 : list string :=
  ["fn main ( ) - > Result < ( ) , Box < dyn std : : error : : Error > > { fallible ( ( ) ) . inspect_err ( | _ | { let _column = 17usize ; } ) ? ; Ok ( (";
   ") ) }"].
(** main *)
Example recorded_meta_vars_column_main_0 : expanded su_meta_vars_column_main args_meta_vars_column_main_0 it_meta_vars_column_main_0 = words rec_meta_vars_column_main_0.
Proof. vm_compute. reflexivity. Qed.
(** ** mdbook-source-code/meta-vars-count/src/main.rs *)
Definition doc_meta_vars_count_main : list (string * ftable) := [].
Definition texts_meta_vars_count_main : list (string * list tt) := let S := at_ "" in [].
Definition strs_meta_vars_count_main : list (string * string) :=
  [].
Definition ends_meta_vars_count_main : list (N * N * (N * N * string)) :=
  [(3, 15, (3, 23, "")); (3, 45, (5, 2, "")); (4, 7, (4, 12, "")); (7, 2, (7, 8, "")); (8, 2, (10, 5, "")); (8, 15, (10, 4, "")); (8, 28, (10, 3, "")); (8, 33, (10, 2, "")); (11, 8, (11, 10, "")); (11, 21, (11, 23, "")); (11, 53, (15, 2, "")); (12, 13, (12, 17, "")); (12, 14, (12, 16, "")); (14, 7, (14, 11, "")); (14, 8, (14, 10, ""))].
Definition su_meta_vars_count_main : setup := mk_setup (mk_features false false false false false "hooq") doc_meta_vars_count_main texts_meta_vars_count_main strs_meta_vars_count_main [] ends_meta_vars_count_main "main".
Definition it_meta_vars_count_main_0 : item := let S := at_ "mdbook-source-code/meta-vars-count/src/main.rs" in
  (IFn [mk_attr false (S 8 1) (MList (mk_path false [mk_seg "hooq" [] (S 8 3); mk_seg "method" [] (S 8 9)]) Parenth [O S "." 8 16; I S "inspect_err" 8 17; G S Parenth [O S "|" 8 29; I S "_" 8 30; O S "|" 8 31; G S Brace [I S "let" 9 5; I S "_count" 9 9; O S "=" 9 16; O S "$" 9 18; I S "count" 9 19; O S ";" 9 24] 8 33] 8 28] (S 8 15))] [] (mk_sig "main" (RetPath (mk_path false [mk_seg "Result" [O S "<" 11 20; G S Parenth [] 11 21; O S "," 11 23; I S "Box" 11 25; O S "<" 11 28; I S "dyn" 11 29; I S "std" 11 33; O S ":" 11 36; O S ":" 11 37; I S "error" 11 38; O S ":" 11 43; O S ":" 11 44; I S "Error" 11 45; O S ">" 11 50; O S ">" 11 51] (S 11 14)])) [I S "fn" 11 1; I S "main" 11 4; G S Parenth [] 11 8; O S "-" 11 11; O S ">" 11 12; I S "Result" 11 14; O S "<" 11 20; G S Parenth [] 11 21; O S "," 11 23; I S "Box" 11 25; O S "<" 11 28; I S "dyn" 11 29; I S "std" 11 33; O S ":" 11 36; O S ":" 11 37; I S "error" 11 38; O S ":" 11 43; O S ":" 11 44; I S "Error" 11 45; O S ">" 11 50; O S ">" 11 51]) (S 11 53) [(SExpr (ETry [] (ECall [] (EPath [] (mk_path false [mk_seg "fallible" [] (S 12 5)])) (S 12 13) [(ETuple [] (S 12 14) [] [])] []) (S 12 17)) (Some (S 12 18))); (SExpr (ECall [] (EPath [] (mk_path false [mk_seg "Ok" [] (S 14 5)])) (S 14 7) [(ETuple [] (S 14 8) [] [])] []) None)]).
Definition args_meta_vars_count_main_0 : list meta := let S := at_ "mdbook-source-code/meta-vars-count/src/main.rs" in [].
Definition rec_meta_vars_count_main_0 : list string :=
  ["fn main ( ) - > Result < ( ) , Box < dyn std : : error : : Error > > { fallible ( ( ) ) . inspect_err ( | _ | { let _count = ""1st\s?"" ; } ) ? ; Ok ( (";
   ") ) }"].
(** main *)
Example recorded_meta_vars_count_main_0 : expanded su_meta_vars_count_main args_meta_vars_count_main_0 it_meta_vars_count_main_0 = words rec_meta_vars_count_main_0.
Proof. vm_compute. reflexivity. Qed.
(** ** mdbook-source-code/meta-vars-file/src/main.rs *)
Definition doc_meta_vars_file_main : list (string * ftable) := [].
Definition texts_meta_vars_file_main : list (string * list tt) := let S := at_ "" in [].
Definition strs_meta_vars_file_main : list (string * string) :=
  [("main . rs", "main.rs")].
Definition ends_meta_vars_file_main : list (N * N * (N * N * string)) :=
  [(3, 15, (3, 23, "")); (3, 45, (5, 2, "")); (4, 7, (4, 12, "")); (7, 2, (7, 8, "")); (8, 2, (10, 5, "")); (8, 15, (10, 4, "")); (8, 28, (10, 3, "")); (8, 33, (10, 2, "")); (11, 8, (11, 10, "")); (11, 21, (11, 23, "")); (11, 53, (15, 2, "")); (12, 13, (12, 17, "")); (12, 14, (12, 16, "")); (14, 7, (14, 11, "")); (14, 8, (14, 10, ""))].
Definition su_meta_vars_file_main : setup := mk_setup (mk_features false false false false false "hooq") doc_meta_vars_file_main texts_meta_vars_file_main strs_meta_vars_file_main [] ends_meta_vars_file_main "main".
Definition it_meta_vars_file_main_0 : item := let S := at_ "mdbook-source-code/meta-vars-file/src/main.rs" in
  (IFn [mk_attr false (S 8 1) (MList (mk_path false [mk_seg "hooq" [] (S 8 3); mk_seg "method" [] (S 8 9)]) Parenth [O S "." 8 16; I S "inspect_err" 8 17; G S Parenth [O S "|" 8 29; I S "_" 8 30; O S "|" 8 31; G S Brace [I S "let" 9 5; I S "_file" 9 9; O S "=" 9 15; O S "$" 9 17; I S "file" 9 18; O S ";" 9 22] 8 33] 8 28] (S 8 15))] [] (mk_sig "main" (RetPath (mk_path false [mk_seg "Result" [O S "<" 11 20; G S Parenth [] 11 21; O S "," 11 23; I S "Box" 11 25; O S "<" 11 28; I S "dyn" 11 29; I S "std" 11 33; O S ":" 11 36; O S ":" 11 37; I S "error" 11 38; O S ":" 11 43; O S ":" 11 44; I S "Error" 11 45; O S ">" 11 50; O S ">" 11 51] (S 11 14)])) [I S "fn" 11 1; I S "main" 11 4; G S Parenth [] 11 8; O S "-" 11 11; O S ">" 11 12; I S "Result" 11 14; O S "<" 11 20; G S Parenth [] 11 21; O S "," 11 23; I S "Box" 11 25; O S "<" 11 28; I S "dyn" 11 29; I S "std" 11 33; O S ":" 11 36; O S ":" 11 37; I S "error" 11 38; O S ":" 11 43; O S ":" 11 44; I S "Error" 11 45; O S ">" 11 50; O S ">" 11 51]) (S 11 53) [(SExpr (ETry [] (ECall [] (EPath [] (mk_path false [mk_seg "fallible" [] (S 12 5)])) (S 12 13) [(ETuple [] (S 12 14) [] [])] []) (S 12 17)) (Some (S 12 18))); (SExpr (ECall [] (EPath [] (mk_path false [mk_seg "Ok" [] (S 14 5)])) (S 14 7) [(ETuple [] (S 14 8) [] [])] []) None)]).
Definition args_meta_vars_file_main_0 : list meta := let S := at_ "mdbook-source-code/meta-vars-file/src/main.rs" in [].
Definition rec_meta_vars_file_main_0 : list string :=
  ["fn main ( ) - > Result < ( ) , Box < dyn std : : error : : Error > > { fallible ( ( ) ) . inspect_err ( | _ | { let _file = ""main.rs"" ; } ) ? ; Ok ( (";
   ") ) }"].
(** main *)
Example recorded_meta_vars_file_main_0 : expanded su_meta_vars_file_main args_meta_vars_file_main_0 it_meta_vars_file_main_0 = words rec_meta_vars_file_main_0.
Proof. vm_compute. reflexivity. Qed.
(** ** mdbook-source-code/meta-vars-fn_name/src/main.rs *)
Definition doc_meta_vars_fn_name_main : list (string * ftable) := [].
Definition texts_meta_vars_fn_name_main : list (string * list tt) := let S := at_ "" in [].
Definition strs_meta_vars_fn_name_main : list (string * string) :=
  [].
Definition ends_meta_vars_fn_name_main : list (N * N * (N * N * string)) :=
  [(3, 15, (3, 23, "")); (3, 45, (5, 2, "")); (4, 7, (4, 12, "")); (7, 2, (7, 8, "")); (8, 2, (10, 5, "")); (8, 15, (10, 4, "")); (8, 28, (10, 3, "")); (8, 33, (10, 2, "")); (11, 8, (11, 10, "")); (11, 21, (11, 23, "")); (11, 53, (21, 2, "")); (12, 13, (12, 17, "")); (12, 14, (12, 16, "")); (14, 5, (18, 7, "")); (14, 19, (14, 21, "")); (14, 31, (18, 6, "")); (15, 17, (15, 21, "")); (15, 18, (15, 20, "")); (17, 11, (17, 15, "")); (17, 12, (17, 14, "")); (18, 7, (18, 9, "")); (20, 7, (20, 11, "")); (20, 8, (20, 10, ""))].
Definition su_meta_vars_fn_name_main : setup := mk_setup (mk_features false false false false false "hooq") doc_meta_vars_fn_name_main texts_meta_vars_fn_name_main strs_meta_vars_fn_name_main [] ends_meta_vars_fn_name_main "main".
Definition it_meta_vars_fn_name_main_0 : item := let S := at_ "mdbook-source-code/meta-vars-fn_name/src/main.rs" in
  (IFn [mk_attr false (S 8 1) (MList (mk_path false [mk_seg "hooq" [] (S 8 3); mk_seg "method" [] (S 8 9)]) Parenth [O S "." 8 16; I S "inspect_err" 8 17; G S Parenth [O S "|" 8 29; I S "_" 8 30; O S "|" 8 31; G S Brace [I S "let" 9 5; I S "_fn_name" 9 9; O S "=" 9 18; O S "$" 9 20; I S "fn_name" 9 21; O S ";" 9 28] 8 33] 8 28] (S 8 15))] [] (mk_sig "main" (RetPath (mk_path false [mk_seg "Result" [O S "<" 11 20; G S Parenth [] 11 21; O S "," 11 23; I S "Box" 11 25; O S "<" 11 28; I S "dyn" 11 29; I S "std" 11 33; O S ":" 11 36; O S ":" 11 37; I S "error" 11 38; O S ":" 11 43; O S ":" 11 44; I S "Error" 11 45; O S ">" 11 50; O S ">" 11 51] (S 11 14)])) [I S "fn" 11 1; I S "main" 11 4; G S Parenth [] 11 8; O S "-" 11 11; O S ">" 11 12; I S "Result" 11 14; O S "<" 11 20; G S Parenth [] 11 21; O S "," 11 23; I S "Box" 11 25; O S "<" 11 28; I S "dyn" 11 29; I S "std" 11 33; O S ":" 11 36; O S ":" 11 37; I S "error" 11 38; O S ":" 11 43; O S ":" 11 44; I S "Error" 11 45; O S ">" 11 50; O S ">" 11 51]) (S 11 53) [(SExpr (ETry [] (ECall [] (EPath [] (mk_path false [mk_seg "fallible" [] (S 12 5)])) (S 12 13) [(ETuple [] (S 12 14) [] [])] []) (S 12 17)) (Some (S 12 18))); (SExpr (ETry [] (ECall [] (EParen [] (S 14 5) (EClosure [] [O S "|" 14 6; O S "|" 14 7; O S "-" 14 9; O S ">" 14 10; I S "Result" 14 12; O S "<" 14 18; G S Parenth [] 14 19; O S "," 14 21; I S "String" 14 23; O S ">" 14 29] (RetPath (mk_path false [mk_seg "Result" [O S "<" 14 18; G S Parenth [] 14 19; O S "," 14 21; I S "String" 14 23; O S ">" 14 29] (S 14 12)])) (EBlock [] [] (S 14 31) [(SExpr (ETry [] (ECall [] (EPath [] (mk_path false [mk_seg "fallible" [] (S 15 9)])) (S 15 17) [(ETuple [] (S 15 18) [] [])] []) (S 15 21)) (Some (S 15 22))); (SExpr (ECall [] (EPath [] (mk_path false [mk_seg "Ok" [] (S 17 9)])) (S 17 11) [(ETuple [] (S 17 12) [] [])] []) None)]))) (S 18 7) [] []) (S 18 9)) (Some (S 18 10))); (SExpr (ECall [] (EPath [] (mk_path false [mk_seg "Ok" [] (S 20 5)])) (S 20 7) [(ETuple [] (S 20 8) [] [])] []) None)]).
Definition args_meta_vars_fn_name_main_0 : list meta := let S := at_ "mdbook-source-code/meta-vars-fn_name/src/main.rs" in [].
Definition rec_meta_vars_fn_name_main_0 : list string :=
  ["fn main ( ) - > Result < ( ) , Box < dyn std : : error : : Error > > { fallible ( ( ) ) . inspect_err ( | _ | { let _fn_name = ""main"" ; } ) ? ; ( | |";
   "- > Result < ( ) , String > { fallible ( ( ) ) . inspect_err ( | _ | { let _fn_name = ""__closure_in_main__"" ; } ) ? ; Ok ( ( ) ) } ) ( ) . inspect_err";
   "( | _ | { let _fn_name = ""main"" ; } ) ? ; Ok ( ( ) ) }"].
(** main *)
Example recorded_meta_vars_fn_name_main_0 : expanded su_meta_vars_fn_name_main args_meta_vars_fn_name_main_0 it_meta_vars_fn_name_main_0 = words rec_meta_vars_fn_name_main_0.
Proof. vm_compute. reflexivity. Qed.
(** ** mdbook-source-code/meta-vars-fn_sig/src/main.rs *)
Definition doc_meta_vars_fn_sig_main : list (string * ftable) := [].
Definition texts_meta_vars_fn_sig_main : list (string * list tt) := let S := at_ "" in [].
Definition strs_meta_vars_fn_sig_main : list (string * string) :=
  [("fn main ( ) - > Result < ( ) , Box < dyn std : : error : : Error > >", "fn main() -> Result < (), Box < dyn std :: error :: Error > >");
   ("| | - > Result < ( ) , String > { }", "| | -> Result < (), String > {}")].
Definition ends_meta_vars_fn_sig_main : list (N * N * (N * N * string)) :=
  [(3, 15, (3, 23, "")); (3, 45, (5, 2, "")); (4, 7, (4, 12, "")); (7, 2, (7, 8, "")); (8, 2, (10, 5, "")); (8, 15, (10, 4, "")); (8, 28, (10, 3, "")); (8, 33, (10, 2, "")); (11, 8, (11, 10, "")); (11, 21, (11, 23, "")); (11, 53, (21, 2, "")); (12, 13, (12, 17, "")); (12, 14, (12, 16, "")); (14, 5, (18, 7, "")); (14, 19, (14, 21, "")); (14, 31, (18, 6, "")); (15, 17, (15, 21, "")); (15, 18, (15, 20, "")); (17, 11, (17, 15, "")); (17, 12, (17, 14, "")); (18, 7, (18, 9, "")); (20, 7, (20, 11, "")); (20, 8, (20, 10, ""))].
Definition su_meta_vars_fn_sig_main : setup := mk_setup (mk_features false false false false false "hooq") doc_meta_vars_fn_sig_main texts_meta_vars_fn_sig_main strs_meta_vars_fn_sig_main [] ends_meta_vars_fn_sig_main "main".
Definition it_meta_vars_fn_sig_main_0 : item := let S := at_ "mdbook-source-code/meta-vars-fn_sig/src/main.rs" in
  (IFn [mk_attr false (S 8 1) (MList (mk_path false [mk_seg "hooq" [] (S 8 3); mk_seg "method" [] (S 8 9)]) Parenth [O S "." 8 16; I S "inspect_err" 8 17; G S Parenth [O S "|" 8 29; I S "_" 8 30; O S "|" 8 31; G S Brace [I S "let" 9 5; I S "_fn_sig" 9 9; O S "=" 9 17; O S "$" 9 19; I S "fn_sig" 9 20; O S ";" 9 26] 8 33] 8 28] (S 8 15))] [] (mk_sig "main" (RetPath (mk_path false [mk_seg "Result" [O S "<" 11 20; G S Parenth [] 11 21; O S "," 11 23; I S "Box" 11 25; O S "<" 11 28; I S "dyn" 11 29; I S "std" 11 33; O S ":" 11 36; O S ":" 11 37; I S "error" 11 38; O S ":" 11 43; O S ":" 11 44; I S "Error" 11 45; O S ">" 11 50; O S ">" 11 51] (S 11 14)])) [I S "fn" 11 1; I S "main" 11 4; G S Parenth [] 11 8; O S "-" 11 11; O S ">" 11 12; I S "Result" 11 14; O S "<" 11 20; G S Parenth [] 11 21; O S "," 11 23; I S "Box" 11 25; O S "<" 11 28; I S "dyn" 11 29; I S "std" 11 33; O S ":" 11 36; O S ":" 11 37; I S "error" 11 38; O S ":" 11 43; O S ":" 11 44; I S "Error" 11 45; O S ">" 11 50; O S ">" 11 51]) (S 11 53) [(SExpr (ETry [] (ECall [] (EPath [] (mk_path false [mk_seg "fallible" [] (S 12 5)])) (S 12 13) [(ETuple [] (S 12 14) [] [])] []) (S 12 17)) (Some (S 12 18))); (SExpr (ETry [] (ECall [] (EParen [] (S 14 5) (EClosure [] [O S "|" 14 6; O S "|" 14 7; O S "-" 14 9; O S ">" 14 10; I S "Result" 14 12; O S "<" 14 18; G S Parenth [] 14 19; O S "," 14 21; I S "String" 14 23; O S ">" 14 29] (RetPath (mk_path false [mk_seg "Result" [O S "<" 14 18; G S Parenth [] 14 19; O S "," 14 21; I S "String" 14 23; O S ">" 14 29] (S 14 12)])) (EBlock [] [] (S 14 31) [(SExpr (ETry [] (ECall [] (EPath [] (mk_path false [mk_seg "fallible" [] (S 15 9)])) (S 15 17) [(ETuple [] (S 15 18) [] [])] []) (S 15 21)) (Some (S 15 22))); (SExpr (ECall [] (EPath [] (mk_path false [mk_seg "Ok" [] (S 17 9)])) (S 17 11) [(ETuple [] (S 17 12) [] [])] []) None)]))) (S 18 7) [] []) (S 18 9)) (Some (S 18 10))); (SExpr (ECall [] (EPath [] (mk_path false [mk_seg "Ok" [] (S 20 5)])) (S 20 7) [(ETuple [] (S 20 8) [] [])] []) None)]).
Definition args_meta_vars_fn_sig_main_0 : list meta := let S := at_ "mdbook-source-code/meta-vars-fn_sig/src/main.rs" in [].
Definition rec_meta_vars_fn_sig_main_0 : list string :=
  ["fn main ( ) - > Result < ( ) , Box < dyn std : : error : : Error > > { fallible ( ( ) ) . inspect_err ( | _ | { let _fn_sig =";
   """fn\smain()\s->\sResult\s<\s(),\sBox\s<\sdyn\sstd\s::\serror\s::\sError\s>\s>"" ; } ) ? ; ( | | - > Result < ( ) , String > { fallible ( ( ) ) .";
   "inspect_err ( | _ | { let _fn_sig = ""|\s|\s->\sResult\s<\s(),\sString\s>\s{}"" ; } ) ? ; Ok ( ( ) ) } ) ( ) . inspect_err ( | _ | { let _fn_sig =";
   """fn\smain()\s->\sResult\s<\s(),\sBox\s<\sdyn\sstd\s::\serror\s::\sError\s>\s>"" ; } ) ? ; Ok ( ( ) ) }"].
(** main *)
Example recorded_meta_vars_fn_sig_main_0 : expanded su_meta_vars_fn_sig_main args_meta_vars_fn_sig_main_0 it_meta_vars_fn_sig_main_0 = words rec_meta_vars_fn_sig_main_0.
Proof. vm_compute. reflexivity. Qed.
(** ** mdbook-source-code/meta-vars-hooq_meta/src/main.rs *)
Definition doc_meta_vars_hooq_meta_main : list (string * ftable) := [].
Definition texts_meta_vars_hooq_meta_main : list (string * list tt) := let S := at_ "" in [].
Definition strs_meta_vars_hooq_meta_main : list (string * string) :=
  [("fallible ( ( ) ) ?", "fallible(()) ?");
   ("hello !", "hello!");
   ("main . rs", "main.rs");
   ("mdbook - source - code / meta - vars - hooq_meta / src / main . rs", "mdbook-source-code/meta-vars-hooq_meta/src/main.rs")].
Definition ends_meta_vars_hooq_meta_main : list (N * N * (N * N * string)) :=
  [(3, 15, (3, 23, "")); (3, 45, (5, 2, "")); (4, 7, (4, 12, "")); (7, 2, (7, 8, "")); (8, 2, (8, 27, "")); (8, 18, (8, 26, """hello!""")); (9, 2, (11, 5, "")); (9, 15, (11, 4, "")); (9, 28, (11, 3, "")); (9, 33, (11, 2, "")); (12, 8, (12, 10, "")); (12, 21, (12, 23, "")); (12, 53, (16, 2, "")); (13, 13, (13, 17, "")); (13, 14, (13, 16, "")); (15, 7, (15, 11, "")); (15, 8, (15, 10, ""))].
Definition su_meta_vars_hooq_meta_main : setup := mk_setup (mk_features false false false false false "hooq") doc_meta_vars_hooq_meta_main texts_meta_vars_hooq_meta_main strs_meta_vars_hooq_meta_main [] ends_meta_vars_hooq_meta_main "main".
Definition it_meta_vars_hooq_meta_main_0 : item := let S := at_ "mdbook-source-code/meta-vars-hooq_meta/src/main.rs" in
  (IFn [mk_attr false (S 8 1) (MNameValue (mk_path false [mk_seg "hooq" [] (S 8 3); mk_seg "string" [] (S 8 9)]) (VStr "hello!" (S 8 18))); mk_attr false (S 9 1) (MList (mk_path false [mk_seg "hooq" [] (S 9 3); mk_seg "method" [] (S 9 9)]) Parenth [O S "." 9 16; I S "inspect_err" 9 17; G S Parenth [O S "|" 9 29; I S "_" 9 30; O S "|" 9 31; G S Brace [I S "let" 10 5; I S "_hooq_meta" 10 9; O S "=" 10 20; O S "$" 10 22; I S "hooq_meta" 10 23; O S ";" 10 32] 9 33] 9 28] (S 9 15))] [] (mk_sig "main" (RetPath (mk_path false [mk_seg "Result" [O S "<" 12 20; G S Parenth [] 12 21; O S "," 12 23; I S "Box" 12 25; O S "<" 12 28; I S "dyn" 12 29; I S "std" 12 33; O S ":" 12 36; O S ":" 12 37; I S "error" 12 38; O S ":" 12 43; O S ":" 12 44; I S "Error" 12 45; O S ">" 12 50; O S ">" 12 51] (S 12 14)])) [I S "fn" 12 1; I S "main" 12 4; G S Parenth [] 12 8; O S "-" 12 11; O S ">" 12 12; I S "Result" 12 14; O S "<" 12 20; G S Parenth [] 12 21; O S "," 12 23; I S "Box" 12 25; O S "<" 12 28; I S "dyn" 12 29; I S "std" 12 33; O S ":" 12 36; O S ":" 12 37; I S "error" 12 38; O S ":" 12 43; O S ":" 12 44; I S "Error" 12 45; O S ">" 12 50; O S ">" 12 51]) (S 12 53) [(SExpr (ETry [] (ECall [] (EPath [] (mk_path false [mk_seg "fallible" [] (S 13 5)])) (S 13 13) [(ETuple [] (S 13 14) [] [])] []) (S 13 17)) (Some (S 13 18))); (SExpr (ECall [] (EPath [] (mk_path false [mk_seg "Ok" [] (S 15 5)])) (S 15 7) [(ETuple [] (S 15 8) [] [])] []) None)]).
Definition args_meta_vars_hooq_meta_main_0 : list meta := let S := at_ "mdbook-source-code/meta-vars-hooq_meta/src/main.rs" in [].
Definition rec_meta_vars_hooq_meta_main_0 : list string :=
  ["fn main ( ) - > Result < ( ) , Box < dyn std : : error : : Error > > { fallible ( ( ) ) . inspect_err ( | _ | { let _hooq_meta = : : hooq : : HooqMeta";
   "{ line : 13usize , column : 17usize , path : ""mdbook-source-code/meta-vars-hooq_meta/src/main.rs"" , file : ""main.rs"" , source_str : ""fallible(())\s?""";
   ", count : ""1st\s?"" , bindings : : : std : : collections : : HashMap : : from ( [ ( : : std : : string : : ToString : : to_string ( ""string"" ) , { let";
   "expr = : : std : : string : : ToString : : to_string ( ""\""hello!\"""" ) ; let value : : : std : : rc : : Rc < dyn : : std : : any : : Any > = : : std :";
   ": rc : : Rc : : new ( ""hello!"" ) ; : : hooq : : BindingPayload { expr , value } } ) ] ) } ; } ) ? ; Ok ( ( ) ) }"].
(** main *)
Example recorded_meta_vars_hooq_meta_main_0 : expanded su_meta_vars_hooq_meta_main args_meta_vars_hooq_meta_main_0 it_meta_vars_hooq_meta_main_0 = words rec_meta_vars_hooq_meta_main_0.
Proof. vm_compute. reflexivity. Qed.
(** ** mdbook-source-code/meta-vars-line/src/main.rs *)
Definition doc_meta_vars_line_main : list (string * ftable) := [].
Definition texts_meta_vars_line_main : list (string * list tt) := let S := at_ "" in [].
Definition strs_meta_vars_line_main : list (string * string) :=
  [].
Definition ends_meta_vars_line_main : list (N * N * (N * N * string)) :=
  [(3, 15, (3, 23, "")); (3, 45, (5, 2, "")); (4, 7, (4, 12, "")); (7, 2, (7, 8, "")); (8, 2, (10, 5, "")); (8, 15, (10, 4, "")); (8, 28, (10, 3, "")); (8, 33, (10, 2, "")); (11, 8, (11, 10, "")); (11, 21, (11, 23, "")); (11, 53, (15, 2, "")); (12, 13, (12, 17, "")); (12, 14, (12, 16, "")); (14, 7, (14, 11, "")); (14, 8, (14, 10, ""))].
Definition su_meta_vars_line_main : setup := mk_setup (mk_features false false false false false "hooq") doc_meta_vars_line_main texts_meta_vars_line_main strs_meta_vars_line_main [] ends_meta_vars_line_main "main".
Definition it_meta_vars_line_main_0 : item := let S := at_ "mdbook-source-code/meta-vars-line/src/main.rs" in
  (IFn [mk_attr false (S 8 1) (MList (mk_path false [mk_seg "hooq" [] (S 8 3); mk_seg "method" [] (S 8 9)]) Parenth [O S "." 8 16; I S "inspect_err" 8 17; G S Parenth [O S "|" 8 29; I S "_" 8 30; O S "|" 8 31; G S Brace [I S "let" 9 5; I S "_line" 9 9; O S "=" 9 15; O S "$" 9 17; I S "line" 9 18; O S ";" 9 22] 8 33] 8 28] (S 8 15))] [] (mk_sig "main" (RetPath (mk_path false [mk_seg "Result" [O S "<" 11 20; G S Parenth [] 11 21; O S "," 11 23; I S "Box" 11 25; O S "<" 11 28; I S "dyn" 11 29; I S "std" 11 33; O S ":" 11 36; O S ":" 11 37; I S "error" 11 38; O S ":" 11 43; O S ":" 11 44; I S "Error" 11 45; O S ">" 11 50; O S ">" 11 51] (S 11 14)])) [I S "fn" 11 1; I S "main" 11 4; G S Parenth [] 11 8; O S "-" 11 11; O S ">" 11 12; I S "Result" 11 14; O S "<" 11 20; G S Parenth [] 11 21; O S "," 11 23; I S "Box" 11 25; O S "<" 11 28; I S "dyn" 11 29; I S "std" 11 33; O S ":" 11 36; O S ":" 11 37; I S "error" 11 38; O S ":" 11 43; O S ":" 11 44; I S "Error" 11 45; O S ">" 11 50; O S ">" 11 51]) (S 11 53) [(SExpr (ETry [] (ECall [] (EPath [] (mk_path false [mk_seg "fallible" [] (S 12 5)])) (S 12 13) [(ETuple [] (S 12 14) [] [])] []) (S 12 17)) (Some (S 12 18))); (SExpr (ECall [] (EPath [] (mk_path false [mk_seg "Ok" [] (S 14 5)])) (S 14 7) [(ETuple [] (S 14 8) [] [])] []) None)]).
Definition args_meta_vars_line_main_0 : list meta := let S := at_ "mdbook-source-code/meta-vars-line/src/main.rs" in [].
Definition rec_meta_vars_line_main_0 : list string :=
  ["fn main ( ) - > Result < ( ) , Box < dyn std : : error : : Error > > { fallible ( ( ) ) . inspect_err ( | _ | { let _line = 12usize ; } ) ? ; Ok ( ( )";
   ") }"].
(** main *)
Example recorded_meta_vars_line_main_0 : expanded su_meta_vars_line_main args_meta_vars_line_main_0 it_meta_vars_line_main_0 = words rec_meta_vars_line_main_0.
Proof. vm_compute. reflexivity. Qed.
(** ** mdbook-source-code/meta-vars-path/src/main.rs *)
Definition doc_meta_vars_path_main : list (string * ftable) := [].
Definition texts_meta_vars_path_main : list (string * list tt) := let S := at_ "" in [].
Definition strs_meta_vars_path_main : list (string * string) :=
  [("mdbook - source - code / meta - vars - path / src / main . rs", "mdbook-source-code/meta-vars-path/src/main.rs")].
Definition ends_meta_vars_path_main : list (N * N * (N * N * string)) :=
  [(3, 15, (3, 23, "")); (3, 45, (5, 2, "")); (4, 7, (4, 12, "")); (7, 2, (7, 8, "")); (8, 2, (10, 5, "")); (8, 15, (10, 4, "")); (8, 28, (10, 3, "")); (8, 33, (10, 2, "")); (11, 8, (11, 10, "")); (11, 21, (11, 23, "")); (11, 53, (15, 2, "")); (12, 13, (12, 17, "")); (12, 14, (12, 16, "")); (14, 7, (14, 11, "")); (14, 8, (14, 10, ""))].
Definition su_meta_vars_path_main : setup := mk_setup (mk_features false false false false false "hooq") doc_meta_vars_path_main texts_meta_vars_path_main strs_meta_vars_path_main [] ends_meta_vars_path_main "main".
Definition it_meta_vars_path_main_0 : item := let S := at_ "mdbook-source-code/meta-vars-path/src/main.rs" in
  (IFn [mk_attr false (S 8 1) (MList (mk_path false [mk_seg "hooq" [] (S 8 3); mk_seg "method" [] (S 8 9)]) Parenth [O S "." 8 16; I S "inspect_err" 8 17; G S Parenth [O S "|" 8 29; I S "_" 8 30; O S "|" 8 31; G S Brace [I S "let" 9 5; I S "_path" 9 9; O S "=" 9 15; O S "$" 9 17; I S "path" 9 18; O S ";" 9 22] 8 33] 8 28] (S 8 15))] [] (mk_sig "main" (RetPath (mk_path false [mk_seg "Result" [O S "<" 11 20; G S Parenth [] 11 21; O S "," 11 23; I S "Box" 11 25; O S "<" 11 28; I S "dyn" 11 29; I S "std" 11 33; O S ":" 11 36; O S ":" 11 37; I S "error" 11 38; O S ":" 11 43; O S ":" 11 44; I S "Error" 11 45; O S ">" 11 50; O S ">" 11 51] (S 11 14)])) [I S "fn" 11 1; I S "main" 11 4; G S Parenth [] 11 8; O S "-" 11 11; O S ">" 11 12; I S "Result" 11 14; O S "<" 11 20; G S Parenth [] 11 21; O S "," 11 23; I S "Box" 11 25; O S "<" 11 28; I S "dyn" 11 29; I S "std" 11 33; O S ":" 11 36; O S ":" 11 37; I S "error" 11 38; O S ":" 11 43; O S ":" 11 44; I S "Error" 11 45; O S ">" 11 50; O S ">" 11 51]) (S 11 53) [(SExpr (ETry [] (ECall [] (EPath [] (mk_path false [mk_seg "fallible" [] (S 12 5)])) (S 12 13) [(ETuple [] (S 12 14) [] [])] []) (S 12 17)) (Some (S 12 18))); (SExpr (ECall [] (EPath [] (mk_path false [mk_seg "Ok" [] (S 14 5)])) (S 14 7) [(ETuple [] (S 14 8) [] [])] []) None)]).
Definition args_meta_vars_path_main_0 : list meta := let S := at_ "mdbook-source-code/meta-vars-path/src/main.rs" in [].
Definition rec_meta_vars_path_main_0 : list string :=
  ["fn main ( ) - > Result < ( ) , Box < dyn std : : error : : Error > > { fallible ( ( ) ) . inspect_err ( | _ | { let _path =";
   """mdbook-source-code/meta-vars-path/src/main.rs"" ; } ) ? ; Ok ( ( ) ) }"].
(** main *)
Example recorded_meta_vars_path_main_0 : expanded su_meta_vars_path_main args_meta_vars_path_main_0 it_meta_vars_path_main_0 = words rec_meta_vars_path_main_0.
Proof. vm_compute. reflexivity. Qed.
(** ** mdbook-source-code/meta-vars-source/src/main.rs *)
Definition doc_meta_vars_source_main : list (string * ftable) := [].
Definition texts_meta_vars_source_main : list (string * list tt) := let S := at_ "" in [].
Definition strs_meta_vars_source_main : list (string * string) :=
  [("fallible ( ( ) ) ?", "fallible(()) ?")].
Definition ends_meta_vars_source_main : list (N * N * (N * N * string)) :=
  [(3, 15, (3, 23, "")); (3, 45, (5, 2, "")); (4, 7, (4, 12, "")); (7, 2, (7, 8, "")); (8, 2, (10, 5, "")); (8, 15, (10, 4, "")); (8, 28, (10, 3, "")); (8, 33, (10, 2, "")); (9, 29, (9, 38, "")); (11, 8, (11, 10, "")); (11, 21, (11, 23, "")); (11, 53, (15, 2, "")); (12, 13, (12, 17, "")); (12, 14, (12, 16, "")); (14, 7, (14, 11, "")); (14, 8, (14, 10, ""))].
Definition su_meta_vars_source_main : setup := mk_setup (mk_features false false false false false "hooq") doc_meta_vars_source_main texts_meta_vars_source_main strs_meta_vars_source_main [] ends_meta_vars_source_main "main".
Definition it_meta_vars_source_main_0 : item := let S := at_ "mdbook-source-code/meta-vars-source/src/main.rs" in
  (IFn [mk_attr false (S 8 1) (MList (mk_path false [mk_seg "hooq" [] (S 8 3); mk_seg "method" [] (S 8 9)]) Parenth [O S "." 8 16; I S "inspect_err" 8 17; G S Parenth [O S "|" 8 29; I S "_" 8 30; O S "|" 8 31; G S Brace [I S "let" 9 5; I S "_source" 9 9; O S "=" 9 17; I S "stringify" 9 19; O S "!" 9 28; G S Parenth [O S "$" 9 30; I S "source" 9 31] 9 29; O S ";" 9 38] 8 33] 8 28] (S 8 15))] [] (mk_sig "main" (RetPath (mk_path false [mk_seg "Result" [O S "<" 11 20; G S Parenth [] 11 21; O S "," 11 23; I S "Box" 11 25; O S "<" 11 28; I S "dyn" 11 29; I S "std" 11 33; O S ":" 11 36; O S ":" 11 37; I S "error" 11 38; O S ":" 11 43; O S ":" 11 44; I S "Error" 11 45; O S ">" 11 50; O S ">" 11 51] (S 11 14)])) [I S "fn" 11 1; I S "main" 11 4; G S Parenth [] 11 8; O S "-" 11 11; O S ">" 11 12; I S "Result" 11 14; O S "<" 11 20; G S Parenth [] 11 21; O S "," 11 23; I S "Box" 11 25; O S "<" 11 28; I S "dyn" 11 29; I S "std" 11 33; O S ":" 11 36; O S ":" 11 37; I S "error" 11 38; O S ":" 11 43; O S ":" 11 44; I S "Error" 11 45; O S ">" 11 50; O S ">" 11 51]) (S 11 53) [(SExpr (ETry [] (ECall [] (EPath [] (mk_path false [mk_seg "fallible" [] (S 12 5)])) (S 12 13) [(ETuple [] (S 12 14) [] [])] []) (S 12 17)) (Some (S 12 18))); (SExpr (ECall [] (EPath [] (mk_path false [mk_seg "Ok" [] (S 14 5)])) (S 14 7) [(ETuple [] (S 14 8) [] [])] []) None)]).
Definition args_meta_vars_source_main_0 : list meta := let S := at_ "mdbook-source-code/meta-vars-source/src/main.rs" in [].
Definition rec_meta_vars_source_main_0 : list string :=
  ["fn main ( ) - > Result < ( ) , Box < dyn std : : error : : Error > > { fallible ( ( ) ) . inspect_err ( | _ | { let _source = ""fallible(())\s?"" ; } )";
   "? ; Ok ( ( ) ) }"].
(** main *)
Example recorded_meta_vars_source_main_0 : expanded su_meta_vars_source_main args_meta_vars_source_main_0 it_meta_vars_source_main_0 = words rec_meta_vars_source_main_0.
Proof. vm_compute. reflexivity. Qed.
(** ** mdbook-source-code/method_insert_mode/src/main.rs *)
Definition doc_method_insert_mode_main : list (string * ftable) := [].
Definition texts_method_insert_mode_main : list (string * list tt) := let S := at_ "" in [].
Definition strs_method_insert_mode_main : list (string * string) :=
  [].
Definition ends_method_insert_mode_main : list (N * N * (N * N * string)) :=
  [(3, 15, (3, 23, "")); (3, 45, (5, 2, "")); (4, 7, (4, 12, "")); (7, 2, (7, 8, "")); (8, 2, (10, 5, "")); (8, 15, (10, 4, "")); (8, 28, (10, 3, "")); (8, 33, (10, 2, "")); (9, 13, (9, 28, """inserted mode""")); (11, 8, (11, 10, "")); (11, 21, (11, 23, "")); (11, 53, (25, 2, "")); (12, 13, (12, 17, "")); (12, 14, (12, 16, "")); (14, 6, (16, 17, "")); (14, 19, (16, 16, "")); (14, 32, (16, 7, "")); (14, 37, (16, 6, "")); (15, 17, (15, 33, """before chained""")); (17, 13, (17, 17, "")); (17, 14, (17, 16, "")); (19, 6, (21, 9, "")); (19, 19, (21, 8, "")); (19, 40, (21, 7, "")); (19, 45, (21, 6, "")); (20, 17, (20, 32, """after chained""")); (22, 13, (22, 17, "")); (22, 14, (22, 16, "")); (24, 7, (24, 11, "")); (24, 8, (24, 10, ""))].
Definition su_method_insert_mode_main : setup := mk_setup (mk_features false false false false false "hooq") doc_method_insert_mode_main texts_method_insert_mode_main strs_method_insert_mode_main [] ends_method_insert_mode_main "main".
Definition it_method_insert_mode_main_0 : item := let S := at_ "mdbook-source-code/method_insert_mode/src/main.rs" in
  (IFn [mk_attr false (S 8 1) (MList (mk_path false [mk_seg "hooq" [] (S 8 3); mk_seg "method" [] (S 8 9)]) Parenth [O S "." 8 16; I S "inspect_err" 8 17; G S Parenth [O S "|" 8 29; I S "_" 8 30; O S "|" 8 31; G S Brace [I S "let" 9 5; I S "_" 9 9; O S "=" 9 11; L S (LStr "inserted mode") 9 13; O S ";" 9 28] 8 33] 8 28] (S 8 15))] [] (mk_sig "main" (RetPath (mk_path false [mk_seg "Result" [O S "<" 11 20; G S Parenth [] 11 21; O S "," 11 23; I S "Box" 11 25; O S "<" 11 28; I S "dyn" 11 29; I S "std" 11 33; O S ":" 11 36; O S ":" 11 37; I S "error" 11 38; O S ":" 11 43; O S ":" 11 44; I S "Error" 11 45; O S ">" 11 50; O S ">" 11 51] (S 11 14)])) [I S "fn" 11 1; I S "main" 11 4; G S Parenth [] 11 8; O S "-" 11 11; O S ">" 11 12; I S "Result" 11 14; O S "<" 11 20; G S Parenth [] 11 21; O S "," 11 23; I S "Box" 11 25; O S "<" 11 28; I S "dyn" 11 29; I S "std" 11 33; O S ":" 11 36; O S ":" 11 37; I S "error" 11 38; O S ":" 11 43; O S ":" 11 44; I S "Error" 11 45; O S ">" 11 50; O S ">" 11 51]) (S 11 53) [(SExpr (ETry [] (ECall [] (EPath [] (mk_path false [mk_seg "fallible" [] (S 12 5)])) (S 12 13) [(ETuple [] (S 12 14) [] [])] []) (S 12 17)) (Some (S 12 18))); (SExpr (ETry [mk_attr false (S 14 5) (MList (mk_path false [mk_seg "hooq" [] (S 14 7); mk_seg "method" [] (S 14 13)]) Parenth [O S "." 14 20; I S "inspect_err" 14 21; G S Parenth [O S "|" 14 33; I S "_" 14 34; O S "|" 14 35; G S Brace [I S "let" 15 9; I S "_" 15 13; O S "=" 15 15; L S (LStr "before chained") 15 17; O S ";" 15 33] 14 37] 14 32; O S "." 16 7; O S "$" 16 8; I S "so_far" 16 9] (S 14 19))] (ECall [] (EPath [] (mk_path false [mk_seg "fallible" [] (S 17 5)])) (S 17 13) [(ETuple [] (S 17 14) [] [])] []) (S 17 17)) (Some (S 17 18))); (SExpr (ETry [mk_attr false (S 19 5) (MList (mk_path false [mk_seg "hooq" [] (S 19 7); mk_seg "method" [] (S 19 13)]) Parenth [O S "." 19 20; O S "$" 19 21; I S "so_far" 19 22; O S "." 19 28; I S "inspect_err" 19 29; G S Parenth [O S "|" 19 41; I S "_" 19 42; O S "|" 19 43; G S Brace [I S "let" 20 9; I S "_" 20 13; O S "=" 20 15; L S (LStr "after chained") 20 17; O S ";" 20 32] 19 45] 19 40] (S 19 19))] (ECall [] (EPath [] (mk_path false [mk_seg "fallible" [] (S 22 5)])) (S 22 13) [(ETuple [] (S 22 14) [] [])] []) (S 22 17)) (Some (S 22 18))); (SExpr (ECall [] (EPath [] (mk_path false [mk_seg "Ok" [] (S 24 5)])) (S 24 7) [(ETuple [] (S 24 8) [] [])] []) None)]).
Definition args_method_insert_mode_main_0 : list meta := let S := at_ "mdbook-source-code/method_insert_mode/src/main.rs" in [].
Definition rec_method_insert_mode_main_0 : list string :=
  ["fn main ( ) - > Result < ( ) , Box < dyn std : : error : : Error > > { fallible ( ( ) ) . inspect_err ( | _ | { let _ = ""inserted\smode"" ; } ) ? ;";
   "fallible ( ( ) ) . inspect_err ( | _ | { let _ = ""before\schained"" ; } ) . inspect_err ( | _ | { let _ = ""inserted\smode"" ; } ) ? ; fallible ( ( ) ) .";
   "inspect_err ( | _ | { let _ = ""inserted\smode"" ; } ) . inspect_err ( | _ | { let _ = ""after\schained"" ; } ) ? ; Ok ( ( ) ) }"].
(** main *)
Example recorded_method_insert_mode_main_0 : expanded su_method_insert_mode_main args_method_insert_mode_main_0 it_method_insert_mode_main_0 = words rec_method_insert_mode_main_0.
Proof. vm_compute. reflexivity. Qed.
(** ** mdbook-source-code/method_replace_mode/src/main.rs *)
Definition doc_method_replace_mode_main : list (string * ftable) := [].
Definition texts_method_replace_mode_main : list (string * list tt) := let S := at_ "" in [].
Definition strs_method_replace_mode_main : list (string * string) :=
  [].
Definition ends_method_replace_mode_main : list (N * N * (N * N * string)) :=
  [(3, 15, (3, 23, "")); (3, 45, (5, 2, "")); (4, 7, (4, 12, "")); (7, 17, (7, 34, "")); (10, 1, (16, 2, "")); (11, 15, (11, 18, "")); (11, 24, (13, 6, "")); (12, 17, (12, 42, "")); (12, 18, (12, 41, """Error occurred: {e:?}""")); (18, 2, (18, 8, "")); (19, 2, (19, 32, "")); (19, 15, (19, 31, "")); (19, 23, (19, 30, "")); (20, 8, (20, 10, "")); (20, 21, (20, 23, "")); (20, 33, (24, 2, "")); (21, 13, (21, 17, "")); (21, 14, (21, 16, "")); (23, 7, (23, 11, "")); (23, 8, (23, 10, ""))].
Definition su_method_replace_mode_main : setup := mk_setup (mk_features false false false false false "hooq") doc_method_replace_mode_main texts_method_replace_mode_main strs_method_replace_mode_main [] ends_method_replace_mode_main "main".
Definition it_method_replace_mode_main_0 : item := let S := at_ "mdbook-source-code/method_replace_mode/src/main.rs" in
  (IFn [mk_attr false (S 19 1) (MList (mk_path false [mk_seg "hooq" [] (S 19 3); mk_seg "method" [] (S 19 9)]) Parenth [I S "wrapper" 19 16; G S Parenth [O S "$" 19 24; I S "expr" 19 25] 19 23] (S 19 15))] [] (mk_sig "main" (RetPath (mk_path false [mk_seg "Result" [O S "<" 20 20; G S Parenth [] 20 21; O S "," 20 23; I S "String" 20 25; O S ">" 20 31] (S 20 14)])) [I S "fn" 20 1; I S "main" 20 4; G S Parenth [] 20 8; O S "-" 20 11; O S ">" 20 12; I S "Result" 20 14; O S "<" 20 20; G S Parenth [] 20 21; O S "," 20 23; I S "String" 20 25; O S ">" 20 31]) (S 20 33) [(SExpr (ETry [] (ECall [] (EPath [] (mk_path false [mk_seg "fallible" [] (S 21 5)])) (S 21 13) [(ETuple [] (S 21 14) [] [])] []) (S 21 17)) (Some (S 21 18))); (SExpr (ECall [] (EPath [] (mk_path false [mk_seg "Ok" [] (S 23 5)])) (S 23 7) [(ETuple [] (S 23 8) [] [])] []) None)]).
Definition args_method_replace_mode_main_0 : list meta := let S := at_ "mdbook-source-code/method_replace_mode/src/main.rs" in [].
Definition rec_method_replace_mode_main_0 : list string :=
  ["fn main ( ) - > Result < ( ) , String > { wrapper ( fallible ( ( ) ) ) ? ; Ok ( ( ) ) }"].
(** main *)
Example recorded_method_replace_mode_main_0 : expanded su_method_replace_mode_main args_method_replace_mode_main_0 it_method_replace_mode_main_0 = words rec_method_replace_mode_main_0.
Proof. vm_compute. reflexivity. Qed.
(** ** mdbook-source-code/my-flavor/src/main.rs *)
Definition doc_my_flavor_main : list (string * ftable) := [("my_flavor", FTable (mk_tcore ["sub::MyTrait"] (Some ".inspect_err(|_| {
    let _ = $xxx;
})") (Some ["?"; "return"; "tail_expr"]) (Some ["Err"]) (Some ["Ok"]) (Some ["Result"]) (Some true) [("xxx", """my_flavor""")]) [("sub_flavor", FTable (mk_tcore [] None None None None None None [("xxx", """my_flavor_sub""")]) [])])].
Definition texts_my_flavor_main : list (string * list tt) := let S := at_ "" in [("""my_flavor""", [L S (LStr "my_flavor") 1 1]);
  ("""my_flavor_sub""", [L S (LStr "my_flavor_sub") 1 1]);
  (".inspect_err(|_| {
    let _ = $xxx;
})", [O S "." 1 1; I S "inspect_err" 1 2; G S Parenth [O S "|" 1 14; I S "_" 1 15; O S "|" 1 16; G S Brace [I S "let" 2 5; I S "_" 2 9; O S "=" 2 11; O S "$" 2 13; I S "xxx" 2 14; O S ";" 2 17] 1 18] 1 13]);
  ("sub::MyTrait", [I S "sub" 1 1; O S ":" 1 4; O S ":" 1 5; I S "MyTrait" 1 6])].
Definition strs_my_flavor_main : list (string * string) :=
  [].
Definition ends_my_flavor_main : list (N * N * (N * N * string)) :=
  [(3, 15, (3, 23, "")); (3, 45, (5, 2, "")); (4, 7, (4, 12, "")); (7, 9, (9, 2, "")); (8, 23, (8, 25, "")); (11, 2, (11, 19, "")); (11, 7, (11, 18, "")); (12, 8, (12, 10, "")); (12, 21, (12, 23, "")); (12, 53, (19, 2, "")); (13, 13, (13, 17, "")); (13, 14, (13, 16, "")); (15, 6, (15, 44, "")); (16, 13, (16, 17, "")); (16, 14, (16, 16, "")); (18, 7, (18, 11, "")); (18, 8, (18, 10, ""))].
Definition su_my_flavor_main : setup := mk_setup (mk_features false false false false false "hooq") doc_my_flavor_main texts_my_flavor_main strs_my_flavor_main [] ends_my_flavor_main "main".
Definition it_my_flavor_main_0 : item := let S := at_ "mdbook-source-code/my-flavor/src/main.rs" in
  (IFn [] [] (mk_sig "main" (RetPath (mk_path false [mk_seg "Result" [O S "<" 12 20; G S Parenth [] 12 21; O S "," 12 23; I S "Box" 12 25; O S "<" 12 28; I S "dyn" 12 29; I S "std" 12 33; O S ":" 12 36; O S ":" 12 37; I S "error" 12 38; O S ":" 12 43; O S ":" 12 44; I S "Error" 12 45; O S ">" 12 50; O S ">" 12 51] (S 12 14)])) [I S "fn" 12 1; I S "main" 12 4; G S Parenth [] 12 8; O S "-" 12 11; O S ">" 12 12; I S "Result" 12 14; O S "<" 12 20; G S Parenth [] 12 21; O S "," 12 23; I S "Box" 12 25; O S "<" 12 28; I S "dyn" 12 29; I S "std" 12 33; O S ":" 12 36; O S ":" 12 37; I S "error" 12 38; O S ":" 12 43; O S ":" 12 44; I S "Error" 12 45; O S ">" 12 50; O S ">" 12 51]) (S 12 53) [(SExpr (ETry [] (ECall [] (EPath [] (mk_path false [mk_seg "fallible" [] (S 13 5)])) (S 13 13) [(ETuple [] (S 13 14) [] [])] []) (S 13 17)) (Some (S 13 18))); (SExpr (ETry [mk_attr false (S 15 5) (MNameValue (mk_path false [mk_seg "hooq" [] (S 15 7); mk_seg "flavor" [] (S 15 13)]) (VPath (mk_path false [mk_seg "my_flavor" [] (S 15 22); mk_seg "sub_flavor" [] (S 15 33)])))] (ECall [] (EPath [] (mk_path false [mk_seg "fallible" [] (S 16 5)])) (S 16 13) [(ETuple [] (S 16 14) [] [])] []) (S 16 17)) (Some (S 16 18))); (SExpr (ECall [] (EPath [] (mk_path false [mk_seg "Ok" [] (S 18 5)])) (S 18 7) [(ETuple [] (S 18 8) [] [])] []) None)]).
Definition args_my_flavor_main_0 : list meta := let S := at_ "mdbook-source-code/my-flavor/src/main.rs" in [(MPath (mk_path false [mk_seg "my_flavor" [] (S 11 8)]))].
Definition rec_my_flavor_main_0 : list string :=
  ["# [ allow ( unused ) ] use sub : : MyTrait as _ ; fn main ( ) - > Result < ( ) , Box < dyn std : : error : : Error > > { fallible ( ( ) ) .";
   "inspect_err ( | _ | { let _ = ""my_flavor"" ; } ) ? ; fallible ( ( ) ) . inspect_err ( | _ | { let _ = ""my_flavor_sub"" ; } ) ? ; Ok ( ( ) ) }"].
(** main *)
Example recorded_my_flavor_main_0 : expanded su_my_flavor_main args_my_flavor_main_0 it_my_flavor_main_0 = words rec_my_flavor_main_0.
Proof. vm_compute. reflexivity. Qed.
(** ** mdbook-source-code/recipe-batch-apply/src/main.rs *)
Definition doc_recipe_batch_apply_main : list (string * ftable) := [].
Definition texts_recipe_batch_apply_main : list (string * list tt) := let S := at_ "" in [].
Definition strs_recipe_batch_apply_main : list (string * string) :=
  [].
Definition ends_recipe_batch_apply_main : list (N * N * (N * N * string)) :=
  [(3, 2, (3, 8, "")); (4, 2, (4, 38, "")); (4, 15, (4, 37, "")); (4, 28, (4, 36, "")); (4, 33, (4, 35, "")); (5, 10, (74, 2, "")); (6, 15, (6, 17, "")); (6, 25, (9, 6, "")); (11, 23, (11, 31, "")); (11, 45, (11, 47, "")); (11, 49, (16, 6, "")); (15, 11, (15, 16, "")); (18, 6, (18, 43, "")); (18, 29, (18, 42, "")); (18, 30, (18, 34, """Ok""")); (18, 36, (18, 41, """Err""")); (19, 26, (19, 34, "")); (19, 48, (19, 50, "")); (19, 52, (28, 6, "")); (20, 20, (20, 27, "")); (20, 34, (20, 36, "")); (20, 37, (24, 10, "")); (23, 28, (23, 33, "")); (27, 11, (27, 16, "")); (30, 16, (30, 18, "")); (30, 29, (30, 31, "")); (30, 33, (30, 35, "")); (30, 37, (73, 6, "")); (32, 17, (32, 21, "")); (32, 18, (32, 20, "")); (34, 20, (46, 10, "")); (36, 21, (36, 25, "")); (36, 22, (36, 24, "")); (39, 24, (39, 31, "")); (39, 33, (42, 14, "")); (41, 27, (41, 31, "")); (41, 28, (41, 30, "")); (45, 15, (45, 19, "")); (45, 16, (45, 18, "")); (48, 20, (51, 10, "")); (50, 22, (50, 24, "")); (50, 26, (50, 28, "")); (50, 33, (50, 37, "")); (50, 34, (50, 36, "")); (53, 17, (59, 10, "")); (54, 24, (54, 26, "")); (58, 22, (58, 24, "")); (58, 26, (58, 28, "")); (58, 34, (58, 38, "")); (58, 35, (58, 37, "")); (61, 30, (61, 32, "")); (61, 34, (61, 36, "")); (61, 38, (64, 10, "")); (63, 21, (63, 25, "")); (63, 22, (63, 24, "")); (66, 20, (69, 10, "")); (68, 21, (68, 25, "")); (68, 22, (68, 24, "")); (72, 11, (72, 15, "")); (72, 12, (72, 14, "")); (76, 8, (76, 10, "")); (76, 11, (80, 2, "")); (77, 22, (77, 24, "")); (78, 27, (78, 32, "")); (79, 23, (79, 25, ""))].
Definition su_recipe_batch_apply_main : setup := mk_setup (mk_features false false false false false "hooq") doc_recipe_batch_apply_main texts_recipe_batch_apply_main strs_recipe_batch_apply_main [] ends_recipe_batch_apply_main "main".
Definition it_recipe_batch_apply_main_0 : item := let S := at_ "mdbook-source-code/recipe-batch-apply/src/main.rs" in
  (IMod [mk_attr false (S 4 1) (MList (mk_path false [mk_seg "hooq" [] (S 4 3); mk_seg "method" [] (S 4 9)]) Parenth [O S "." 4 16; I S "inspect_err" 4 17; G S Parenth [O S "|" 4 29; I S "_" 4 30; O S "|" 4 31; G S Brace [] 4 33] 4 28] (S 4 15))] [I S "mod" 5 1; I S "hoge" 5 5] (S 5 10) [(IFn [] [I S "pub" 6 5] (mk_sig "bar" (RetPath (mk_path false [mk_seg "i32" [] (S 6 21)])) [I S "fn" 6 9; I S "bar" 6 12; G S Parenth [] 6 15; O S "-" 6 18; O S ">" 6 19; I S "i32" 6 21]) (S 6 25) [(SExpr (ELit [] (LOther "42") (S 8 9)) None)]); (IFn [] [I S "pub" 11 5] (mk_sig "fallible" (RetPath (mk_path false [mk_seg "Result" [O S "<" 11 41; I S "T" 11 42; O S "," 11 43; G S Parenth [] 11 45; O S ">" 11 47] (S 11 35)])) [I S "fn" 11 9; I S "fallible" 11 12; O S "<" 11 20; I S "T" 11 21; O S ">" 11 22; G S Parenth [I S "val" 11 24; O S ":" 11 27; I S "T" 11 29] 11 23; O S "-" 11 32; O S ">" 11 33; I S "Result" 11 35; O S "<" 11 41; I S "T" 11 42; O S "," 11 43; G S Parenth [] 11 45; O S ">" 11 47]) (S 11 49) [(SExpr (ECall [] (EPath [] (mk_path false [mk_seg "Ok" [] (S 15 9)])) (S 15 11) [(EPath [] (mk_path false [mk_seg "val" [] (S 15 12)]))] []) None)]); (IFn [mk_attr false (S 18 5) (MList (mk_path false [mk_seg "hooq" [] (S 18 7); mk_seg "tail_expr_idents" [] (S 18 13)]) Parenth [L S (LStr "Ok") 18 30; O S "," 18 34; L S (LStr "Err") 18 36] (S 18 29))] [I S "pub" 19 5] (mk_sig "_fallible_2" (RetPath (mk_path false [mk_seg "Result" [O S "<" 19 44; I S "T" 19 45; O S "," 19 46; G S Parenth [] 19 48; O S ">" 19 50] (S 19 38)])) [I S "fn" 19 9; I S "_fallible_2" 19 12; O S "<" 19 23; I S "T" 19 24; O S ">" 19 25; G S Parenth [I S "val" 19 27; O S ":" 19 30; I S "T" 19 32] 19 26; O S "-" 19 35; O S ">" 19 36; I S "Result" 19 38; O S "<" 19 44; I S "T" 19 45; O S "," 19 46; G S Parenth [] 19 48; O S ">" 19 50]) (S 19 52) [(SExpr (EIf [] [I S "if" 20 9] (EMethodCall [] (ECall [] (EPath [] (mk_path false [mk_seg "fallible" [] (S 20 12)])) (S 20 20) [(EPath [] (mk_path false [mk_seg "false" [] (S 20 21)]))] []) [O S "." 20 27; I S "unwrap" 20 28] (S 20 34) [] []) (S 20 37) [(SExpr (EReturn [] (S 23 13) (Some (ECall [] (EPath [] (mk_path false [mk_seg "fallible" [] (S 23 20)])) (S 23 28) [(EPath [] (mk_path false [mk_seg "val" [] (S 23 29)]))] []))) (Some (S 23 33)))] [] None) None); (SExpr (ECall [] (EPath [] (mk_path false [mk_seg "Ok" [] (S 27 9)])) (S 27 11) [(EPath [] (mk_path false [mk_seg "val" [] (S 27 12)]))] []) None)]); (IFn [] [I S "pub" 30 5] (mk_sig "fuga" (RetPath (mk_path false [mk_seg "Result" [O S "<" 30 28; G S Parenth [] 30 29; O S "," 30 31; G S Parenth [] 30 33; O S ">" 30 35] (S 30 22)])) [I S "fn" 30 9; I S "fuga" 30 12; G S Parenth [] 30 16; O S "-" 30 19; O S ">" 30 20; I S "Result" 30 22; O S "<" 30 28; G S Parenth [] 30 29; O S "," 30 31; G S Parenth [] 30 33; O S ">" 30 35]) (S 30 37) [(SExpr (ETry [] (ECall [] (EPath [] (mk_path false [mk_seg "fallible" [] (S 32 9)])) (S 32 17) [(ETuple [] (S 32 18) [] [])] []) (S 32 21)) (Some (S 32 22))); (SLocalInit [] [I S "let" 34 9; I S "_" 34 13; O S "=" 34 15] (EClosure [] [O S "|" 34 17; O S "|" 34 18] RetNone (EBlock [] [] (S 34 20) [(SExpr (ETry [] (ECall [] (EPath [] (mk_path false [mk_seg "fallible" [] (S 36 13)])) (S 36 21) [(ETuple [] (S 36 22) [] [])] []) (S 36 25)) (Some (S 36 26))); (SExpr (EIf [] [I S "if" 39 13] (ETry [] (ECall [] (EPath [] (mk_path false [mk_seg "fallible" [] (S 39 16)])) (S 39 24) [(EPath [] (mk_path false [mk_seg "false" [] (S 39 25)]))] []) (S 39 31)) (S 39 33) [(SExpr (EReturn [] (S 41 17) (Some (ECall [] (EPath [] (mk_path false [mk_seg "Err" [] (S 41 24)])) (S 41 27) [(ETuple [] (S 41 28) [] [])] []))) (Some (S 41 31)))] [] None) None); (SExpr (ECall [] (EPath [] (mk_path false [mk_seg "Ok" [] (S 45 13)])) (S 45 15) [(ETuple [] (S 45 16) [] [])] []) None)])) [] None [O S ";" 46 10]); (SLocalInit [] [I S "let" 48 9; I S "_" 48 13; O S "=" 48 15] (EClosure [] [O S "|" 48 17; O S "|" 48 18] RetNone (EBlock [] [] (S 48 20) [(SExpr (ECall [] (EPath [] (mk_path false [mk_seg "Result" [O S ":" 50 19; O S ":" 50 20; O S "<" 50 21; G S Parenth [] 50 22; O S "," 50 24; G S Parenth [] 50 26; O S ">" 50 28] (S 50 13); mk_seg "Ok" [] (S 50 31)])) (S 50 33) [(ETuple [] (S 50 34) [] [])] []) None)])) [] None [O S ";" 51 10]); (SLocalInit [] [I S "let" 53 9; I S "_" 53 13; O S "=" 53 15] (EBlock [] [] (S 53 17) [(SLocalInit [] [I S "let" 54 13; I S "_" 54 17; O S "=" 54 19] (ECall [] (EPath [] (mk_path false [mk_seg "bar" [] (S 54 21)])) (S 54 24) [] []) [] None [O S ";" 54 26]); (SExpr (ECall [] (EPath [] (mk_path false [mk_seg "Result" [O S ":" 58 19; O S ":" 58 20; O S "<" 58 21; G S Parenth [] 58 22; O S "," 58 24; G S Parenth [] 58 26; O S ">" 58 28] (S 58 13); mk_seg "Err" [] (S 58 31)])) (S 58 34) [(ETuple [] (S 58 35) [] [])] []) None)]) [] None [O S ";" 59 10]); (SLocalInit [] [I S "let" 61 9; I S "_" 61 13; O S "=" 61 15] (EClosure [] [O S "|" 61 17; O S "|" 61 18; O S "-" 61 20; O S ">" 61 21; I S "Result" 61 23; O S "<" 61 29; G S Parenth [] 61 30; O S "," 61 32; G S Parenth [] 61 34; O S ">" 61 36] (RetPath (mk_path false [mk_seg "Result" [O S "<" 61 29; G S Parenth [] 61 30; O S "," 61 32; G S Parenth [] 61 34; O S ">" 61 36] (S 61 23)])) (EBlock [] [] (S 61 38) [(SExpr (ECall [] (EPath [] (mk_path false [mk_seg "fallible" [] (S 63 13)])) (S 63 21) [(ETuple [] (S 63 22) [] [])] []) None)])) [] None [O S ";" 64 10]); (SLocalInit [] [I S "let" 66 9; I S "_" 66 13; O S "=" 66 15] (EClosure [] [O S "|" 66 17; O S "|" 66 18] RetNone (EBlock [] [] (S 66 20) [(SExpr (ECall [] (EPath [] (mk_path false [mk_seg "fallible" [] (S 68 13)])) (S 68 21) [(ETuple [] (S 68 22) [] [])] []) None)])) [] None [O S ";" 69 10]); (SExpr (ECall [] (EPath [] (mk_path false [mk_seg "Ok" [] (S 72 9)])) (S 72 11) [(ETuple [] (S 72 12) [] [])] []) None)])]).
Definition args_recipe_batch_apply_main_0 : list meta := let S := at_ "mdbook-source-code/recipe-batch-apply/src/main.rs" in [].
Definition rec_recipe_batch_apply_main_0 : list string :=
  ["mod hoge { pub fn bar ( ) - > i32 { 42 } pub fn fallible < T > ( val : T ) - > Result < T , ( ) > { Ok ( val ) } pub fn _fallible_2 < T > ( val : T )";
   "- > Result < T , ( ) > { if fallible ( false ) . unwrap ( ) { return fallible ( val ) . inspect_err ( | _ | ) ; } Ok ( val ) . inspect_err ( | _ | ) }";
   "pub fn fuga ( ) - > Result < ( ) , ( ) > { fallible ( ( ) ) . inspect_err ( | _ | ) ? ; let _ = | | { fallible ( ( ) ) . inspect_err ( | _ | ) ? ; if";
   "fallible ( false ) . inspect_err ( | _ | ) ? { return Err ( ( ) ) . inspect_err ( | _ | ) ; } Ok ( ( ) ) } ; let _ = | | Result : : < ( ) , ( ) > : :";
   "Ok ( ( ) ) ; let _ = { let _ = bar ( ) ; Result : : < ( ) , ( ) > : : Err ( ( ) ) . inspect_err ( | _ | ) } ; let _ = | | - > Result < ( ) , ( ) > {";
   "fallible ( ( ) ) . inspect_err ( | _ | ) } ; let _ = | | fallible ( ( ) ) ; Ok ( ( ) ) } }"].
(** mod hoge *)
Example recorded_recipe_batch_apply_main_0 : expanded su_recipe_batch_apply_main args_recipe_batch_apply_main_0 it_recipe_batch_apply_main_0 = words rec_recipe_batch_apply_main_0.
Proof. vm_compute. reflexivity. Qed.
(** ** mdbook-source-code/recipe-match/src/main.rs *)
Definition doc_recipe_match_main : list (string * ftable) := [("my_match", FTable (mk_tcore [] (Some "match $expr {
    Ok(val) => val,
    Err(err) => return Err(From::from(err)),
}!
") None None None None None []) [])].
Definition texts_recipe_match_main : list (string * list tt) := let S := at_ "" in [("match $expr {
    Ok(val) => val,
    Err(err) => return Err(From::from(err)),
}!
", [I S "match" 1 1; O S "$" 1 7; I S "expr" 1 8; G S Brace [I S "Ok" 2 5; G S Parenth [I S "val" 2 8] 2 7; O S "=" 2 13; O S ">" 2 14; I S "val" 2 16; O S "," 2 19; I S "Err" 3 5; G S Parenth [I S "err" 3 9] 3 8; O S "=" 3 14; O S ">" 3 15; I S "return" 3 17; I S "Err" 3 24; G S Parenth [I S "From" 3 28; O S ":" 3 32; O S ":" 3 33; I S "from" 3 34; G S Parenth [I S "err" 3 39] 3 38] 3 27; O S "," 3 44] 1 13; O S "!" 4 2])].
Definition strs_recipe_match_main : list (string * string) :=
  [].
Definition ends_recipe_match_main : list (N * N * (N * N * string)) :=
  [(3, 15, (3, 23, "")); (3, 45, (5, 2, "")); (4, 7, (4, 12, "")); (7, 2, (7, 18, "")); (7, 7, (7, 17, "")); (8, 2, (8, 32, "")); (8, 8, (8, 31, "")); (9, 8, (9, 10, "")); (9, 21, (9, 23, "")); (9, 33, (13, 2, "")); (10, 21, (10, 25, "")); (12, 7, (12, 11, "")); (12, 8, (12, 10, ""))].
Definition su_recipe_match_main : setup := mk_setup (mk_features true false false false false "hooq") doc_recipe_match_main texts_recipe_match_main strs_recipe_match_main [] ends_recipe_match_main "main".
Definition it_recipe_match_main_0 : item := let S := at_ "mdbook-source-code/recipe-match/src/main.rs" in
  (IFn [mk_attr false (S 8 1) (MList (mk_path false [mk_seg "allow" [] (S 8 3)]) Parenth [I S "clippy" 8 9; O S ":" 8 15; O S ":" 8 16; I S "question_mark" 8 17] (S 8 8))] [] (mk_sig "main" (RetPath (mk_path false [mk_seg "Result" [O S "<" 9 20; G S Parenth [] 9 21; O S "," 9 23; I S "String" 9 25; O S ">" 9 31] (S 9 14)])) [I S "fn" 9 1; I S "main" 9 4; G S Parenth [] 9 8; O S "-" 9 11; O S ">" 9 12; I S "Result" 9 14; O S "<" 9 20; G S Parenth [] 9 21; O S "," 9 23; I S "String" 9 25; O S ">" 9 31]) (S 9 33) [(SLocalInit [] [I S "let" 10 5; I S "_" 10 9; O S "=" 10 11] (ETry [] (ECall [] (EPath [] (mk_path false [mk_seg "fallible" [] (S 10 13)])) (S 10 21) [(ELit [] (LOther "42") (S 10 22))] []) (S 10 25)) [] None [O S ";" 10 26]); (SExpr (ECall [] (EPath [] (mk_path false [mk_seg "Ok" [] (S 12 5)])) (S 12 7) [(ETuple [] (S 12 8) [] [])] []) None)]).
Definition args_recipe_match_main_0 : list meta := let S := at_ "mdbook-source-code/recipe-match/src/main.rs" in [(MPath (mk_path false [mk_seg "my_match" [] (S 7 8)]))].
Definition rec_recipe_match_main_0 : list string :=
  ["# [ allow ( clippy : : question_mark ) ] fn main ( ) - > Result < ( ) , String > { let _ = match fallible ( 42 ) { Ok ( val ) = > val Err ( err ) = >";
   "return Err ( From : : from ( err ) ) } ; Ok ( ( ) ) }"].
(** main *)
Example recorded_recipe_match_main_0 : expanded su_recipe_match_main args_recipe_match_main_0 it_recipe_match_main_0 = words rec_recipe_match_main_0.
Proof. vm_compute. reflexivity. Qed.
(** ** mdbook-source-code/recipe-option/src/main.rs *)
Definition doc_recipe_option_main : list (string * ftable) := [].
Definition texts_recipe_option_main : list (string * list tt) := let S := at_ "" in [].
Definition strs_recipe_option_main : list (string * string) :=
  [].
Definition ends_recipe_option_main : list (N * N * (N * N * string)) :=
  [(5, 2, (5, 8, "")); (6, 2, (6, 31, "")); (6, 15, (6, 30, "")); (6, 27, (6, 29, "")); (7, 2, (7, 34, "")); (7, 25, (7, 33, "")); (7, 26, (7, 32, """Some""")); (8, 2, (8, 41, "")); (8, 32, (8, 40, "")); (8, 33, (8, 39, """None""")); (9, 2, (9, 32, "")); (9, 21, (9, 31, "")); (9, 22, (9, 30, """Option""")); (10, 8, (10, 10, "")); (10, 11, (49, 2, "")); (11, 19, (11, 21, "")); (11, 37, (14, 6, "")); (13, 13, (13, 17, "")); (16, 29, (16, 49, "")); (16, 63, (28, 6, "")); (18, 28, (18, 30, "")); (21, 17, (24, 10, "")); (23, 17, (23, 22, "")); (24, 16, (27, 10, "")); (30, 19, (30, 21, "")); (30, 37, (30, 39, "")); (30, 41, (33, 6, "")); (32, 11, (32, 15, "")); (35, 19, (35, 21, "")); (35, 37, (35, 39, "")); (35, 41, (43, 6, "")); (38, 10, (38, 26, "")); (39, 28, (39, 30, "")); (42, 11, (42, 15, "")); (45, 24, (45, 26, "")); (46, 24, (46, 35, "")); (47, 24, (47, 26, "")); (48, 24, (48, 26, "")); (51, 17, (53, 2, "")); (52, 18, (52, 24, "")); (58, 1, (68, 2, "")); (59, 18, (59, 24, "")); (59, 33, (67, 6, "")); (60, 20, (66, 10, "")); (61, 17, (61, 22, "")); (61, 26, (64, 14, "")); (62, 25, (62, 54, "")); (62, 26, (62, 53, """Inspecting value: {val:?}""")); (63, 21, (63, 26, ""))].
Definition su_recipe_option_main : setup := mk_setup (mk_features false false false false false "hooq") doc_recipe_option_main texts_recipe_option_main strs_recipe_option_main [] ends_recipe_option_main "main".
Definition it_recipe_option_main_0 : item := let S := at_ "mdbook-source-code/recipe-option/src/main.rs" in
  (IFn [mk_attr false (S 6 1) (MList (mk_path false [mk_seg "hooq" [] (S 6 3); mk_seg "method" [] (S 6 9)]) Parenth [O S "." 6 16; I S "my_inspect" 6 17; G S Parenth [] 6 27] (S 6 15)); mk_attr false (S 7 1) (MList (mk_path false [mk_seg "hooq" [] (S 7 3); mk_seg "tail_expr_idents" [] (S 7 9)]) Parenth [L S (LStr "Some") 7 26] (S 7 25)); mk_attr false (S 8 1) (MList (mk_path false [mk_seg "hooq" [] (S 8 3); mk_seg "ignore_tail_expr_idents" [] (S 8 9)]) Parenth [L S (LStr "None") 8 33] (S 8 32)); mk_attr false (S 9 1) (MList (mk_path false [mk_seg "hooq" [] (S 9 3); mk_seg "result_types" [] (S 9 9)]) Parenth [L S (LStr "Option") 9 22] (S 9 21))] [] (mk_sig "main" RetNone [I S "fn" 10 1; I S "main" 10 4; G S Parenth [] 10 8]) (S 10 11) [(SItem (IFn [] [] (mk_sig "option_fn_1" (RetPath (mk_path false [mk_seg "Option" [O S "<" 11 31; I S "i32" 11 32; O S ">" 11 35] (S 11 25)])) [I S "fn" 11 5; I S "option_fn_1" 11 8; G S Parenth [] 11 19; O S "-" 11 22; O S ">" 11 23; I S "Option" 11 25; O S "<" 11 31; I S "i32" 11 32; O S ">" 11 35]) (S 11 37) [(SExpr (ECall [] (EPath [] (mk_path false [mk_seg "Some" [] (S 13 9)])) (S 13 13) [(ELit [] (LOther "42") (S 13 14))] []) None)])); (SItem (IFn [] [] (mk_sig "option_fn_2" (RetPath (mk_path false [mk_seg "Option" [O S "<" 16 59; I S "T" 16 60; O S ">" 16 61] (S 16 53)])) [I S "fn" 16 5; I S "option_fn_2" 16 8; O S "<" 16 19; I S "T" 16 20; O S ":" 16 21; I S "Debug" 16 23; O S ">" 16 28; G S Parenth [I S "flag" 16 30; O S ":" 16 34; I S "bool" 16 36; O S "," 16 40; I S "val" 16 42; O S ":" 16 45; I S "T" 16 47] 16 29; O S "-" 16 50; O S ">" 16 51; I S "Option" 16 53; O S "<" 16 59; I S "T" 16 60; O S ">" 16 61]) (S 16 63) [(SLocalInit [] [I S "let" 18 9; I S "_" 18 13; O S "=" 18 15] (ETry [] (ECall [] (EPath [] (mk_path false [mk_seg "option_fn_1" [] (S 18 17)])) (S 18 28) [] []) (S 18 30)) [] None [O S ";" 18 31]); (SExpr (EIf [] [I S "if" 21 9] (EPath [] (mk_path false [mk_seg "flag" [] (S 21 12)])) (S 21 17) [(SExpr (ECall [] (EPath [] (mk_path false [mk_seg "Some" [] (S 23 13)])) (S 23 17) [(EPath [] (mk_path false [mk_seg "val" [] (S 23 18)]))] []) None)] [I S "else" 24 11] (Some (EBlock [] [] (S 24 16) [(SExpr (EPath [] (mk_path false [mk_seg "None" [] (S 26 13)])) None)]))) None)])); (SItem (IFn [] [] (mk_sig "result_fn_1" (RetPath (mk_path false [mk_seg "Result" [O S "<" 30 31; I S "i32" 30 32; O S "," 30 35; G S Parenth [] 30 37; O S ">" 30 39] (S 30 25)])) [I S "fn" 30 5; I S "result_fn_1" 30 8; G S Parenth [] 30 19; O S "-" 30 22; O S ">" 30 23; I S "Result" 30 25; O S "<" 30 31; I S "i32" 30 32; O S "," 30 35; G S Parenth [] 30 37; O S ">" 30 39]) (S 30 41) [(SExpr (ECall [] (EPath [] (mk_path false [mk_seg "Ok" [] (S 32 9)])) (S 32 11) [(ELit [] (LOther "42") (S 32 12))] []) None)])); (SItem (IFn [] [] (mk_sig "result_fn_2" (RetPath (mk_path false [mk_seg "Result" [O S "<" 35 31; I S "i32" 35 32; O S "," 35 35; G S Parenth [] 35 37; O S ">" 35 39] (S 35 25)])) [I S "fn" 35 5; I S "result_fn_2" 35 8; G S Parenth [] 35 19; O S "-" 35 22; O S ">" 35 23; I S "Result" 35 25; O S "<" 35 31; I S "i32" 35 32; O S "," 35 35; G S Parenth [] 35 37; O S ">" 35 39]) (S 35 41) [(SLocalInit [mk_attr false (S 38 9) (MPath (mk_path false [mk_seg "hooq" [] (S 38 11); mk_seg "skip_all" [] (S 38 17)]))] [I S "let" 39 9; I S "_" 39 13; O S "=" 39 15] (ETry [] (ECall [] (EPath [] (mk_path false [mk_seg "result_fn_1" [] (S 39 17)])) (S 39 28) [] []) (S 39 30)) [] None [O S ";" 39 31]); (SExpr (ECall [] (EPath [] (mk_path false [mk_seg "Ok" [] (S 42 9)])) (S 42 11) [(ELit [] (LOther "42") (S 42 12))] []) None)])); (SLocalInit [] [I S "let" 45 5; I S "_" 45 9; O S "=" 45 11] (ECall [] (EPath [] (mk_path false [mk_seg "option_fn_1" [] (S 45 13)])) (S 45 24) [] []) [] None [O S ";" 45 26]); (SLocalInit [] [I S "let" 46 5; I S "_" 46 9; O S "=" 46 11] (ECall [] (EPath [] (mk_path false [mk_seg "option_fn_2" [] (S 46 13)])) (S 46 24) [(EPath [] (mk_path false [mk_seg "true" [] (S 46 25)])); (ELit [] (LOther "123") (S 46 31))] [O S "," 46 29]) [] None [O S ";" 46 35]); (SLocalInit [] [I S "let" 47 5; I S "_" 47 9; O S "=" 47 11] (ECall [] (EPath [] (mk_path false [mk_seg "result_fn_1" [] (S 47 13)])) (S 47 24) [] []) [] None [O S ";" 47 26]); (SLocalInit [] [I S "let" 48 5; I S "_" 48 9; O S "=" 48 11] (ECall [] (EPath [] (mk_path false [mk_seg "result_fn_2" [] (S 48 13)])) (S 48 24) [] []) [] None [O S ";" 48 26])]).
Definition args_recipe_option_main_0 : list meta := let S := at_ "mdbook-source-code/recipe-option/src/main.rs" in [].
Definition rec_recipe_option_main_0 : list string :=
  ["fn main ( ) { fn option_fn_1 ( ) - > Option < i32 > { Some ( 42 ) . my_inspect ( ) } fn option_fn_2 < T : Debug > ( flag : bool , val : T ) - > Option";
   "< T > { let _ = option_fn_1 ( ) . my_inspect ( ) ? ; if flag { Some ( val ) . my_inspect ( ) } else { None } . my_inspect ( ) } fn result_fn_1 ( ) - >";
   "Result < i32 , ( ) > { Ok ( 42 ) } fn result_fn_2 ( ) - > Result < i32 , ( ) > { let _ = result_fn_1 ( ) ? ; Ok ( 42 ) } let _ = option_fn_1 ( ) ; let";
   "_ = option_fn_2 ( true , 123 ) ; let _ = result_fn_1 ( ) ; let _ = result_fn_2 ( ) ; }"].
(** main *)
Example recorded_recipe_option_main_0 : expanded su_recipe_option_main args_recipe_option_main_0 it_recipe_option_main_0 = words rec_recipe_option_main_0.
Proof. vm_compute. reflexivity. Qed.
(** ** mdbook-source-code/recipe-unwrap/src/main.rs *)
Definition doc_recipe_unwrap_main : list (string * ftable) := [("unwrap", FTable (mk_tcore [] (Some ".unwrap()!") (Some ["?"]) None None None None []) [])].
Definition texts_recipe_unwrap_main : list (string * list tt) := let S := at_ "" in [(".unwrap()!", [O S "." 1 1; I S "unwrap" 1 2; G S Parenth [] 1 8; O S "!" 1 10])].
Definition strs_recipe_unwrap_main : list (string * string) :=
  [].
Definition ends_recipe_unwrap_main : list (N * N * (N * N * string)) :=
  [(3, 15, (3, 23, "")); (3, 45, (5, 2, "")); (4, 7, (4, 12, "")); (7, 2, (7, 50, "")); (7, 11, (7, 49, "")); (7, 15, (7, 35, "")); (7, 26, (7, 34, """unwrap""")); (7, 41, (7, 48, "")); (8, 2, (8, 46, "")); (8, 11, (8, 45, "")); (8, 22, (8, 30, """unwrap""")); (8, 36, (8, 44, "")); (9, 11, (9, 23, "")); (9, 34, (9, 36, "")); (9, 46, (17, 2, "")); (10, 13, (12, 6, "")); (11, 19, (11, 47, "")); (11, 20, (11, 39, """An error occurred""")); (11, 44, (11, 46, "")); (14, 21, (14, 25, "")); (16, 7, (16, 11, "")); (16, 8, (16, 10, "")); (19, 2, (19, 50, "")); (19, 11, (19, 49, "")); (19, 15, (19, 35, "")); (19, 26, (19, 34, """unwrap""")); (19, 41, (19, 48, "")); (20, 2, (20, 46, "")); (20, 11, (20, 45, "")); (20, 22, (20, 30, """unwrap""")); (20, 36, (20, 44, "")); (21, 8, (21, 10, "")); (21, 21, (21, 23, "")); (21, 53, (25, 2, "")); (22, 12, (22, 19, "")); (24, 7, (24, 11, "")); (24, 8, (24, 10, ""))].
Definition su_recipe_unwrap_main : setup := mk_setup (mk_features true false false false false "hooq") doc_recipe_unwrap_main texts_recipe_unwrap_main strs_recipe_unwrap_main [] ends_recipe_unwrap_main "main".
Definition it_recipe_unwrap_main_0 : item := let S := at_ "mdbook-source-code/recipe-unwrap/src/main.rs" in
  (IFn [] [] (mk_sig "process" (RetPath (mk_path false [mk_seg "Result" [O S "<" 9 33; G S Parenth [] 9 34; O S "," 9 36; I S "String" 9 38; O S ">" 9 44] (S 9 27)])) [I S "fn" 9 1; I S "process" 9 4; G S Parenth [I S "flag" 9 12; O S ":" 9 16; I S "bool" 9 18] 9 11; O S "-" 9 24; O S ">" 9 25; I S "Result" 9 27; O S "<" 9 33; G S Parenth [] 9 34; O S "," 9 36; I S "String" 9 38; O S ">" 9 44]) (S 9 46) [(SExpr (EIf [] [I S "if" 10 5] (EPath [] (mk_path false [mk_seg "flag" [] (S 10 8)])) (S 10 13) [(SExpr (EReturn [] (S 11 9) (Some (ECall [] (EPath [] (mk_path false [mk_seg "Err" [] (S 11 16)])) (S 11 19) [(EMethodCall [] (ELit [] (LStr "An error occurred") (S 11 20)) [O S "." 11 39; I S "into" 11 40] (S 11 44) [] [])] []))) (Some (S 11 47)))] [] None) None); (SLocalInit [] [I S "let" 14 5; I S "_" 14 9; O S "=" 14 11] (ETry [] (ECall [] (EPath [] (mk_path false [mk_seg "fallible" [] (S 14 13)])) (S 14 21) [(ELit [] (LOther "42") (S 14 22))] []) (S 14 25)) [] None [O S ";" 14 26]); (SExpr (ECall [] (EPath [] (mk_path false [mk_seg "Ok" [] (S 16 5)])) (S 16 7) [(ETuple [] (S 16 8) [] [])] []) None)]).
Definition args_recipe_unwrap_main_0 : list meta := let S := at_ "mdbook-source-code/recipe-unwrap/src/main.rs" in [(MPath (mk_path false [mk_seg "empty" [] (S 7 42)]))].
Definition rec_recipe_unwrap_main_0 : list string :=
  ["fn process ( flag : bool ) - > Result < ( ) , String > { if flag { return Err ( ""An\serror\soccurred"" . into ( ) ) ; } let _ = fallible ( 42 ) ? ; Ok";
   "( ( ) ) }"].
Definition it_recipe_unwrap_main_1 : item := let S := at_ "mdbook-source-code/recipe-unwrap/src/main.rs" in
  (IFn [] [] (mk_sig "main" (RetPath (mk_path false [mk_seg "Result" [O S "<" 21 20; G S Parenth [] 21 21; O S "," 21 23; I S "Box" 21 25; O S "<" 21 28; I S "dyn" 21 29; I S "std" 21 33; O S ":" 21 36; O S ":" 21 37; I S "error" 21 38; O S ":" 21 43; O S ":" 21 44; I S "Error" 21 45; O S ">" 21 50; O S ">" 21 51] (S 21 14)])) [I S "fn" 21 1; I S "main" 21 4; G S Parenth [] 21 8; O S "-" 21 11; O S ">" 21 12; I S "Result" 21 14; O S "<" 21 20; G S Parenth [] 21 21; O S "," 21 23; I S "Box" 21 25; O S "<" 21 28; I S "dyn" 21 29; I S "std" 21 33; O S ":" 21 36; O S ":" 21 37; I S "error" 21 38; O S ":" 21 43; O S ":" 21 44; I S "Error" 21 45; O S ">" 21 50; O S ">" 21 51]) (S 21 53) [(SExpr (ETry [] (ECall [] (EPath [] (mk_path false [mk_seg "process" [] (S 22 5)])) (S 22 12) [(EPath [] (mk_path false [mk_seg "false" [] (S 22 13)]))] []) (S 22 19)) (Some (S 22 20))); (SExpr (ECall [] (EPath [] (mk_path false [mk_seg "Ok" [] (S 24 5)])) (S 24 7) [(ETuple [] (S 24 8) [] [])] []) None)]).
Definition args_recipe_unwrap_main_1 : list meta := let S := at_ "mdbook-source-code/recipe-unwrap/src/main.rs" in [(MPath (mk_path false [mk_seg "empty" [] (S 19 42)]))].
Definition rec_recipe_unwrap_main_1 : list string :=
  ["fn main ( ) - > Result < ( ) , Box < dyn std : : error : : Error > > { process ( false ) ? ; Ok ( ( ) ) }"].
(** process *)
Example recorded_recipe_unwrap_main_0 : expanded su_recipe_unwrap_main args_recipe_unwrap_main_0 it_recipe_unwrap_main_0 = words rec_recipe_unwrap_main_0.
Proof. vm_compute. reflexivity. Qed.
(** main *)
Example recorded_recipe_unwrap_main_1 : expanded su_recipe_unwrap_main args_recipe_unwrap_main_1 it_recipe_unwrap_main_1 = words rec_recipe_unwrap_main_1.
Proof. vm_compute. reflexivity. Qed.
(** ** mdbook-source-code/result_types/src/main.rs *)
Definition doc_result_types_main : list (string * ftable) := [].
Definition texts_result_types_main : list (string * list tt) := let S := at_ "" in [].
Definition strs_result_types_main : list (string * string) :=
  [].
Definition ends_result_types_main : list (N * N * (N * N * string)) :=
  [(3, 15, (3, 23, "")); (3, 45, (5, 2, "")); (4, 7, (4, 12, "")); (7, 24, (7, 26, "")); (9, 2, (9, 8, "")); (10, 2, (10, 38, "")); (10, 15, (10, 37, "")); (10, 28, (10, 36, "")); (10, 33, (10, 35, "")); (11, 9, (11, 11, "")); (11, 24, (15, 2, "")); (12, 26, (12, 28, "")); (12, 38, (12, 54, "")); (12, 48, (12, 52, "")); (12, 49, (12, 51, "")); (14, 13, (14, 17, "")); (14, 14, (14, 16, "")); (17, 2, (17, 8, "")); (18, 2, (18, 38, "")); (18, 15, (18, 37, "")); (18, 28, (18, 36, "")); (18, 33, (18, 35, "")); (19, 2, (19, 34, "")); (19, 21, (19, 33, "")); (19, 22, (19, 32, """MyResult""")); (20, 9, (20, 11, "")); (20, 24, (25, 2, "")); (22, 26, (22, 28, "")); (22, 38, (22, 54, "")); (22, 48, (22, 52, "")); (22, 49, (22, 51, "")); (24, 13, (24, 17, "")); (24, 14, (24, 16, "")); (27, 2, (27, 8, "")); (28, 2, (28, 38, "")); (28, 15, (28, 37, "")); (28, 28, (28, 36, "")); (28, 33, (28, 35, "")); (29, 2, (29, 44, "")); (29, 21, (29, 43, "")); (29, 22, (29, 30, """Result""")); (29, 32, (29, 42, """MyResult""")); (30, 9, (30, 11, "")); (30, 24, (39, 2, "")); (31, 26, (31, 28, "")); (31, 38, (31, 54, "")); (31, 48, (31, 52, "")); (31, 49, (31, 51, "")); (33, 16, (36, 6, "")); (35, 17, (35, 21, "")); (35, 18, (35, 20, "")); (38, 13, (38, 17, "")); (38, 14, (38, 16, "")); (41, 8, (41, 10, "")); (41, 11, (45, 2, "")); (42, 18, (42, 20, "")); (43, 18, (43, 20, "")); (44, 18, (44, 20, ""))].
Definition su_result_types_main : setup := mk_setup (mk_features false false false false false "hooq") doc_result_types_main texts_result_types_main strs_result_types_main [] ends_result_types_main "main".
Definition it_result_types_main_0 : item := let S := at_ "mdbook-source-code/result_types/src/main.rs" in
  (IFn [mk_attr false (S 10 1) (MList (mk_path false [mk_seg "hooq" [] (S 10 3); mk_seg "method" [] (S 10 9)]) Parenth [O S "." 10 16; I S "inspect_err" 10 17; G S Parenth [O S "|" 10 29; I S "_" 10 30; O S "|" 10 31; G S Brace [] 10 33] 10 28] (S 10 15))] [] (mk_sig "func1" (RetPath (mk_path false [mk_seg "MyResult" [] (S 11 15)])) [I S "fn" 11 1; I S "func1" 11 4; G S Parenth [] 11 9; O S "-" 11 12; O S ">" 11 13; I S "MyResult" 11 15]) (S 11 24) [(SLocalInit [] [I S "let" 12 5; I S "_" 12 9; O S "=" 12 11] (EClosure [] [O S "|" 12 13; O S "|" 12 14; O S "-" 12 16; O S ">" 12 17; I S "Result" 12 19; O S "<" 12 25; G S Parenth [] 12 26; O S "," 12 28; I S "String" 12 30; O S ">" 12 36] (RetPath (mk_path false [mk_seg "Result" [O S "<" 12 25; G S Parenth [] 12 26; O S "," 12 28; I S "String" 12 30; O S ">" 12 36] (S 12 19)])) (EBlock [] [] (S 12 38) [(SExpr (ECall [] (EPath [] (mk_path false [mk_seg "fallible" [] (S 12 40)])) (S 12 48) [(ETuple [] (S 12 49) [] [])] []) None)])) [] None [O S ";" 12 54]); (SExpr (ECall [] (EPath [] (mk_path false [mk_seg "fallible" [] (S 14 5)])) (S 14 13) [(ETuple [] (S 14 14) [] [])] []) None)]).
Definition args_result_types_main_0 : list meta := let S := at_ "mdbook-source-code/result_types/src/main.rs" in [].
Definition rec_result_types_main_0 : list string :=
  ["fn func1 ( ) - > MyResult { let _ = | | - > Result < ( ) , String > { fallible ( ( ) ) . inspect_err ( | _ | ) } ; fallible ( ( ) ) }"].
Definition it_result_types_main_1 : item := let S := at_ "mdbook-source-code/result_types/src/main.rs" in
  (IFn [mk_attr false (S 18 1) (MList (mk_path false [mk_seg "hooq" [] (S 18 3); mk_seg "method" [] (S 18 9)]) Parenth [O S "." 18 16; I S "inspect_err" 18 17; G S Parenth [O S "|" 18 29; I S "_" 18 30; O S "|" 18 31; G S Brace [] 18 33] 18 28] (S 18 15)); mk_attr false (S 19 1) (MList (mk_path false [mk_seg "hooq" [] (S 19 3); mk_seg "result_types" [] (S 19 9)]) Parenth [L S (LStr "MyResult") 19 22] (S 19 21))] [] (mk_sig "func2" (RetPath (mk_path false [mk_seg "MyResult" [] (S 20 15)])) [I S "fn" 20 1; I S "func2" 20 4; G S Parenth [] 20 9; O S "-" 20 12; O S ">" 20 13; I S "MyResult" 20 15]) (S 20 24) [(SLocalInit [] [I S "let" 22 5; I S "_" 22 9; O S "=" 22 11] (EClosure [] [O S "|" 22 13; O S "|" 22 14; O S "-" 22 16; O S ">" 22 17; I S "Result" 22 19; O S "<" 22 25; G S Parenth [] 22 26; O S "," 22 28; I S "String" 22 30; O S ">" 22 36] (RetPath (mk_path false [mk_seg "Result" [O S "<" 22 25; G S Parenth [] 22 26; O S "," 22 28; I S "String" 22 30; O S ">" 22 36] (S 22 19)])) (EBlock [] [] (S 22 38) [(SExpr (ECall [] (EPath [] (mk_path false [mk_seg "fallible" [] (S 22 40)])) (S 22 48) [(ETuple [] (S 22 49) [] [])] []) None)])) [] None [O S ";" 22 54]); (SExpr (ECall [] (EPath [] (mk_path false [mk_seg "fallible" [] (S 24 5)])) (S 24 13) [(ETuple [] (S 24 14) [] [])] []) None)]).
Definition args_result_types_main_1 : list meta := let S := at_ "mdbook-source-code/result_types/src/main.rs" in [].
Definition rec_result_types_main_1 : list string :=
  ["fn func2 ( ) - > MyResult { let _ = | | - > Result < ( ) , String > { fallible ( ( ) ) } ; fallible ( ( ) ) . inspect_err ( | _ | ) }"].
Definition it_result_types_main_2 : item := let S := at_ "mdbook-source-code/result_types/src/main.rs" in
  (IFn [mk_attr false (S 28 1) (MList (mk_path false [mk_seg "hooq" [] (S 28 3); mk_seg "method" [] (S 28 9)]) Parenth [O S "." 28 16; I S "inspect_err" 28 17; G S Parenth [O S "|" 28 29; I S "_" 28 30; O S "|" 28 31; G S Brace [] 28 33] 28 28] (S 28 15)); mk_attr false (S 29 1) (MList (mk_path false [mk_seg "hooq" [] (S 29 3); mk_seg "result_types" [] (S 29 9)]) Parenth [L S (LStr "Result") 29 22; O S "," 29 30; L S (LStr "MyResult") 29 32] (S 29 21))] [] (mk_sig "func3" (RetPath (mk_path false [mk_seg "MyResult" [] (S 30 15)])) [I S "fn" 30 1; I S "func3" 30 4; G S Parenth [] 30 9; O S "-" 30 12; O S ">" 30 13; I S "MyResult" 30 15]) (S 30 24) [(SLocalInit [] [I S "let" 31 5; I S "_" 31 9; O S "=" 31 11] (EClosure [] [O S "|" 31 13; O S "|" 31 14; O S "-" 31 16; O S ">" 31 17; I S "Result" 31 19; O S "<" 31 25; G S Parenth [] 31 26; O S "," 31 28; I S "String" 31 30; O S ">" 31 36] (RetPath (mk_path false [mk_seg "Result" [O S "<" 31 25; G S Parenth [] 31 26; O S "," 31 28; I S "String" 31 30; O S ">" 31 36] (S 31 19)])) (EBlock [] [] (S 31 38) [(SExpr (ECall [] (EPath [] (mk_path false [mk_seg "fallible" [] (S 31 40)])) (S 31 48) [(ETuple [] (S 31 49) [] [])] []) None)])) [] None [O S ";" 31 54]); (SLocalInit [] [I S "let" 33 5; I S "_" 33 9; O S "=" 33 11] (EClosure [] [O S "|" 33 13; O S "|" 33 14] RetNone (EBlock [] [] (S 33 16) [(SExpr (ECall [] (EPath [] (mk_path false [mk_seg "fallible" [] (S 35 9)])) (S 35 17) [(ETuple [] (S 35 18) [] [])] []) None)])) [] None [O S ";" 36 6]); (SExpr (ECall [] (EPath [] (mk_path false [mk_seg "fallible" [] (S 38 5)])) (S 38 13) [(ETuple [] (S 38 14) [] [])] []) None)]).
Definition args_result_types_main_2 : list meta := let S := at_ "mdbook-source-code/result_types/src/main.rs" in [].
Definition rec_result_types_main_2 : list string :=
  ["fn func3 ( ) - > MyResult { let _ = | | - > Result < ( ) , String > { fallible ( ( ) ) . inspect_err ( | _ | ) } ; let _ = | | fallible ( ( ) ) ;";
   "fallible ( ( ) ) . inspect_err ( | _ | ) }"].
(** func1 *)
Example recorded_result_types_main_0 : expanded su_result_types_main args_result_types_main_0 it_result_types_main_0 = words rec_result_types_main_0.
Proof. vm_compute. reflexivity. Qed.
(** func2 *)
Example recorded_result_types_main_1 : expanded su_result_types_main args_result_types_main_1 it_result_types_main_1 = words rec_result_types_main_1.
Proof. vm_compute. reflexivity. Qed.
(** func3 *)
Example recorded_result_types_main_2 : expanded su_result_types_main args_result_types_main_2 it_result_types_main_2 = words rec_result_types_main_2.
Proof. vm_compute. reflexivity. Qed.
(** ** mdbook-source-code/skip/src/main.rs *)
Definition doc_skip_main : list (string * ftable) := [].
Definition texts_skip_main : list (string * list tt) := let S := at_ "" in [].
Definition strs_skip_main : list (string * string) :=
  [].
Definition ends_skip_main : list (N * N * (N * N * string)) :=
  [(3, 2, (3, 8, "")); (4, 2, (4, 38, "")); (4, 15, (4, 37, "")); (4, 28, (4, 36, "")); (4, 33, (4, 35, "")); (5, 9, (5, 11, "")); (5, 22, (5, 24, "")); (5, 34, (10, 2, "")); (6, 19, (6, 33, "")); (6, 28, (6, 32, "")); (6, 29, (6, 31, "")); (6, 35, (9, 6, "")); (7, 11, (7, 15, "")); (7, 12, (7, 14, "")); (7, 21, (7, 25, "")); (7, 22, (7, 24, "")); (8, 12, (8, 15, "")); (8, 22, (8, 25, "")); (12, 2, (12, 8, "")); (13, 2, (13, 38, "")); (13, 15, (13, 37, "")); (13, 28, (13, 36, "")); (13, 33, (13, 35, "")); (14, 9, (14, 11, "")); (14, 22, (14, 24, "")); (14, 34, (20, 2, "")); (15, 6, (15, 18, "")); (16, 19, (16, 33, "")); (16, 28, (16, 32, "")); (16, 29, (16, 31, "")); (16, 35, (19, 6, "")); (17, 11, (17, 15, "")); (17, 12, (17, 14, "")); (17, 21, (17, 25, "")); (17, 22, (17, 24, "")); (18, 12, (18, 15, "")); (18, 22, (18, 25, "")); (22, 15, (22, 23, "")); (22, 45, (24, 2, "")); (23, 7, (23, 12, "")); (26, 8, (26, 10, "")); (26, 11, (29, 2, "")); (27, 18, (27, 20, "")); (28, 18, (28, 20, ""))].
Definition su_skip_main : setup := mk_setup (mk_features false false false false false "hooq") doc_skip_main texts_skip_main strs_skip_main [] ends_skip_main "main".
Definition it_skip_main_0 : item := let S := at_ "mdbook-source-code/skip/src/main.rs" in
  (IFn [mk_attr false (S 4 1) (MList (mk_path false [mk_seg "hooq" [] (S 4 3); mk_seg "method" [] (S 4 9)]) Parenth [O S "." 4 16; I S "inspect_err" 4 17; G S Parenth [O S "|" 4 29; I S "_" 4 30; O S "|" 4 31; G S Brace [] 4 33] 4 28] (S 4 15))] [] (mk_sig "func1" (RetPath (mk_path false [mk_seg "Result" [O S "<" 5 21; G S Parenth [] 5 22; O S "," 5 24; I S "String" 5 26; O S ">" 5 32] (S 5 15)])) [I S "fn" 5 1; I S "func1" 5 4; G S Parenth [] 5 9; O S "-" 5 12; O S ">" 5 13; I S "Result" 5 15; O S "<" 5 21; G S Parenth [] 5 22; O S "," 5 24; I S "String" 5 26; O S ">" 5 32]) (S 5 34) [(SExpr (EMatch [] [I S "match" 6 5] (ETry [] (ECall [] (EPath [] (mk_path false [mk_seg "fallible" [] (S 6 11)])) (S 6 19) [(ECall [] (EPath [] (mk_path false [mk_seg "fallible" [] (S 6 20)])) (S 6 28) [(ETuple [] (S 6 29) [] [])] [])] []) (S 6 33)) (S 6 35) [(Arm [] [I S "Ok" 7 9; G S Parenth [G S Parenth [] 7 12] 7 11] [] None [O S "=" 7 16; O S ">" 7 17] (ECall [] (EPath [] (mk_path false [mk_seg "Ok" [] (S 7 19)])) (S 7 21) [(ETuple [] (S 7 22) [] [])] []) [O S "," 7 25]); (Arm [] [I S "Err" 8 9; G S Parenth [I S "s" 8 13] 8 12] [] None [O S "=" 8 16; O S ">" 8 17] (ECall [] (EPath [] (mk_path false [mk_seg "Err" [] (S 8 19)])) (S 8 22) [(EPath [] (mk_path false [mk_seg "s" [] (S 8 23)]))] []) [O S "," 8 25])]) None)]).
Definition args_skip_main_0 : list meta := let S := at_ "mdbook-source-code/skip/src/main.rs" in [].
Definition rec_skip_main_0 : list string :=
  ["fn func1 ( ) - > Result < ( ) , String > { match fallible ( fallible ( ( ) ) ) . inspect_err ( | _ | ) ? { Ok ( ( ) ) = > Ok ( ( ) ) Err ( s ) = > Err";
   "( s ) . inspect_err ( | _ | ) } . inspect_err ( | _ | ) }"].
Definition it_skip_main_1 : item := let S := at_ "mdbook-source-code/skip/src/main.rs" in
  (IFn [mk_attr false (S 13 1) (MList (mk_path false [mk_seg "hooq" [] (S 13 3); mk_seg "method" [] (S 13 9)]) Parenth [O S "." 13 16; I S "inspect_err" 13 17; G S Parenth [O S "|" 13 29; I S "_" 13 30; O S "|" 13 31; G S Brace [] 13 33] 13 28] (S 13 15))] [] (mk_sig "func2" (RetPath (mk_path false [mk_seg "Result" [O S "<" 14 21; G S Parenth [] 14 22; O S "," 14 24; I S "String" 14 26; O S ">" 14 32] (S 14 15)])) [I S "fn" 14 1; I S "func2" 14 4; G S Parenth [] 14 9; O S "-" 14 12; O S ">" 14 13; I S "Result" 14 15; O S "<" 14 21; G S Parenth [] 14 22; O S "," 14 24; I S "String" 14 26; O S ">" 14 32]) (S 14 34) [(SExpr (EMatch [mk_attr false (S 15 5) (MPath (mk_path false [mk_seg "hooq" [] (S 15 7); mk_seg "skip" [] (S 15 13)]))] [I S "match" 16 5] (ETry [] (ECall [] (EPath [] (mk_path false [mk_seg "fallible" [] (S 16 11)])) (S 16 19) [(ECall [] (EPath [] (mk_path false [mk_seg "fallible" [] (S 16 20)])) (S 16 28) [(ETuple [] (S 16 29) [] [])] [])] []) (S 16 33)) (S 16 35) [(Arm [] [I S "Ok" 17 9; G S Parenth [G S Parenth [] 17 12] 17 11] [] None [O S "=" 17 16; O S ">" 17 17] (ECall [] (EPath [] (mk_path false [mk_seg "Ok" [] (S 17 19)])) (S 17 21) [(ETuple [] (S 17 22) [] [])] []) [O S "," 17 25]); (Arm [] [I S "Err" 18 9; G S Parenth [I S "s" 18 13] 18 12] [] None [O S "=" 18 16; O S ">" 18 17] (ECall [] (EPath [] (mk_path false [mk_seg "Err" [] (S 18 19)])) (S 18 22) [(EPath [] (mk_path false [mk_seg "s" [] (S 18 23)]))] []) [O S "," 18 25])]) None)]).
Definition args_skip_main_1 : list meta := let S := at_ "mdbook-source-code/skip/src/main.rs" in [].
Definition rec_skip_main_1 : list string :=
  ["fn func2 ( ) - > Result < ( ) , String > { match fallible ( fallible ( ( ) ) ) ? { Ok ( ( ) ) = > Ok ( ( ) ) Err ( s ) = > Err ( s ) . inspect_err ( |";
   "_ | ) } }"].
(** func1 *)
Example recorded_skip_main_0 : expanded su_skip_main args_skip_main_0 it_skip_main_0 = words rec_skip_main_0.
Proof. vm_compute. reflexivity. Qed.
(** func2 *)
Example recorded_skip_main_1 : expanded su_skip_main args_skip_main_1 it_skip_main_1 = words rec_skip_main_1.
Proof. vm_compute. reflexivity. Qed.
(** ** mdbook-source-code/skip_all/src/main.rs *)
Definition doc_skip_all_main : list (string * ftable) := [].
Definition texts_skip_all_main : list (string * list tt) := let S := at_ "" in [].
Definition strs_skip_all_main : list (string * string) :=
  [].
Definition ends_skip_all_main : list (N * N * (N * N * string)) :=
  [(3, 2, (3, 8, "")); (4, 2, (4, 38, "")); (4, 15, (4, 37, "")); (4, 28, (4, 36, "")); (4, 33, (4, 35, "")); (5, 8, (5, 10, "")); (5, 21, (5, 23, "")); (5, 53, (18, 2, "")); (6, 13, (6, 17, "")); (6, 14, (6, 16, "")); (8, 6, (8, 22, "")); (9, 26, (9, 28, "")); (9, 30, (13, 6, "")); (10, 17, (10, 21, "")); (10, 18, (10, 20, "")); (12, 13, (12, 17, "")); (12, 14, (12, 16, "")); (15, 21, (15, 26, "")); (15, 23, (15, 25, "")); (17, 7, (17, 11, "")); (17, 8, (17, 10, "")); (20, 15, (20, 23, "")); (20, 45, (22, 2, "")); (21, 7, (21, 12, "")); (24, 15, (24, 23, "")); (24, 37, (26, 2, "")); (25, 9, (25, 14, ""))].
Definition su_skip_all_main : setup := mk_setup (mk_features false false false false false "hooq") doc_skip_all_main texts_skip_all_main strs_skip_all_main [] ends_skip_all_main "main".
Definition it_skip_all_main_0 : item := let S := at_ "mdbook-source-code/skip_all/src/main.rs" in
  (IFn [mk_attr false (S 4 1) (MList (mk_path false [mk_seg "hooq" [] (S 4 3); mk_seg "method" [] (S 4 9)]) Parenth [O S "." 4 16; I S "inspect_err" 4 17; G S Parenth [O S "|" 4 29; I S "_" 4 30; O S "|" 4 31; G S Brace [] 4 33] 4 28] (S 4 15))] [] (mk_sig "main" (RetPath (mk_path false [mk_seg "Result" [O S "<" 5 20; G S Parenth [] 5 21; O S "," 5 23; I S "Box" 5 25; O S "<" 5 28; I S "dyn" 5 29; I S "std" 5 33; O S ":" 5 36; O S ":" 5 37; I S "error" 5 38; O S ":" 5 43; O S ":" 5 44; I S "Error" 5 45; O S ">" 5 50; O S ">" 5 51] (S 5 14)])) [I S "fn" 5 1; I S "main" 5 4; G S Parenth [] 5 8; O S "-" 5 11; O S ">" 5 12; I S "Result" 5 14; O S "<" 5 20; G S Parenth [] 5 21; O S "," 5 23; I S "Box" 5 25; O S "<" 5 28; I S "dyn" 5 29; I S "std" 5 33; O S ":" 5 36; O S ":" 5 37; I S "error" 5 38; O S ":" 5 43; O S ":" 5 44; I S "Error" 5 45; O S ">" 5 50; O S ">" 5 51]) (S 5 53) [(SExpr (ETry [] (ECall [] (EPath [] (mk_path false [mk_seg "fallible" [] (S 6 5)])) (S 6 13) [(ETuple [] (S 6 14) [] [])] []) (S 6 17)) (Some (S 6 18))); (SLocalInit [mk_attr false (S 8 5) (MPath (mk_path false [mk_seg "hooq" [] (S 8 7); mk_seg "skip_all" [] (S 8 13)]))] [I S "let" 9 5; I S "f" 9 9; O S "=" 9 11] (EClosure [] [O S "|" 9 13; O S "|" 9 14; O S "-" 9 16; O S ">" 9 17; I S "Option" 9 19; O S "<" 9 25; G S Parenth [] 9 26; O S ">" 9 28] (RetPath (mk_path false [mk_seg "Option" [O S "<" 9 25; G S Parenth [] 9 26; O S ">" 9 28] (S 9 19)])) (EBlock [] [] (S 9 30) [(SExpr (ETry [] (ECall [] (EPath [] (mk_path false [mk_seg "optional" [] (S 10 9)])) (S 10 17) [(ETuple [] (S 10 18) [] [])] []) (S 10 21)) (Some (S 10 22))); (SExpr (ECall [] (EPath [] (mk_path false [mk_seg "Some" [] (S 12 9)])) (S 12 13) [(ETuple [] (S 12 14) [] [])] []) None)])) [] None [O S ";" 13 6]); (SLocalInit [] [I S "let" 15 5; I S "_" 15 9; O S "=" 15 11] (ETry [] (ECall [] (EPath [] (mk_path false [mk_seg "fallible" [] (S 15 13)])) (S 15 21) [(ECall [] (EPath [] (mk_path false [mk_seg "f" [] (S 15 22)])) (S 15 23) [] [])] []) (S 15 26)) [] None [O S ";" 15 27]); (SExpr (ECall [] (EPath [] (mk_path false [mk_seg "Ok" [] (S 17 5)])) (S 17 7) [(ETuple [] (S 17 8) [] [])] []) None)]).
Definition args_skip_all_main_0 : list meta := let S := at_ "mdbook-source-code/skip_all/src/main.rs" in [].
Definition rec_skip_all_main_0 : list string :=
  ["fn main ( ) - > Result < ( ) , Box < dyn std : : error : : Error > > { fallible ( ( ) ) . inspect_err ( | _ | ) ? ; let f = | | - > Option < ( ) > {";
   "optional ( ( ) ) ? ; Some ( ( ) ) } ; let _ = fallible ( f ( ) ) . inspect_err ( | _ | ) ? ; Ok ( ( ) ) }"].
(** main *)
Example recorded_skip_all_main_0 : expanded su_skip_all_main args_skip_all_main_0 it_skip_all_main_0 = words rec_skip_all_main_0.
Proof. vm_compute. reflexivity. Qed.
(** ** mdbook-source-code/tail_expr_idents/src/main.rs *)
Definition doc_tail_expr_idents_main : list (string * ftable) := [].
Definition texts_tail_expr_idents_main : list (string * list tt) := let S := at_ "" in [].
Definition strs_tail_expr_idents_main : list (string * string) :=
  [].
Definition ends_tail_expr_idents_main : list (N * N * (N * N * string)) :=
  [(3, 15, (3, 23, "")); (3, 45, (5, 2, "")); (4, 7, (4, 12, "")); (7, 2, (7, 8, "")); (8, 2, (8, 38, "")); (8, 15, (8, 37, "")); (8, 28, (8, 36, "")); (8, 33, (8, 35, "")); (9, 8, (9, 10, "")); (9, 21, (9, 23, "")); (9, 33, (30, 2, "")); (10, 19, (10, 21, "")); (10, 33, (17, 6, "")); (11, 23, (11, 25, "")); (11, 37, (14, 10, "")); (12, 23, (12, 30, """error""")); (12, 40, (12, 42, "")); (13, 16, (13, 21, "")); (16, 17, (16, 21, "")); (16, 18, (16, 20, "")); (19, 6, (19, 49, "")); (19, 29, (19, 48, "")); (19, 30, (19, 35, """Err""")); (19, 37, (19, 47, """fallible""")); (20, 19, (20, 21, "")); (20, 33, (27, 6, "")); (21, 23, (21, 25, "")); (21, 37, (24, 10, "")); (22, 23, (22, 30, """error""")); (22, 40, (22, 42, "")); (23, 16, (23, 21, "")); (26, 17, (26, 21, "")); (26, 18, (26, 20, "")); (29, 7, (29, 11, "")); (29, 8, (29, 10, ""))].
Definition su_tail_expr_idents_main : setup := mk_setup (mk_features false false false false false "hooq") doc_tail_expr_idents_main texts_tail_expr_idents_main strs_tail_expr_idents_main [] ends_tail_expr_idents_main "main".
Definition it_tail_expr_idents_main_0 : item := let S := at_ "mdbook-source-code/tail_expr_idents/src/main.rs" in
  (IFn [mk_attr false (S 8 1) (MList (mk_path false [mk_seg "hooq" [] (S 8 3); mk_seg "method" [] (S 8 9)]) Parenth [O S "." 8 16; I S "inspect_err" 8 17; G S Parenth [O S "|" 8 29; I S "_" 8 30; O S "|" 8 31; G S Brace [] 8 33] 8 28] (S 8 15))] [] (mk_sig "main" (RetPath (mk_path false [mk_seg "Result" [O S "<" 9 20; G S Parenth [] 9 21; O S "," 9 23; I S "String" 9 25; O S ">" 9 31] (S 9 14)])) [I S "fn" 9 1; I S "main" 9 4; G S Parenth [] 9 8; O S "-" 9 11; O S ">" 9 12; I S "Result" 9 14; O S "<" 9 20; G S Parenth [] 9 21; O S "," 9 23; I S "String" 9 25; O S ">" 9 31]) (S 9 33) [(SLocalInit [] [I S "let" 10 5; I S "_" 10 9; O S ":" 10 10; I S "Result" 10 12; O S "<" 10 18; G S Parenth [] 10 19; O S "," 10 21; I S "String" 10 23; O S ">" 10 29; O S "=" 10 31] (EBlock [] [] (S 10 33) [(SLocalInit [] [I S "let" 11 9; I S "_" 11 13; O S ":" 11 14; I S "Result" 11 16; O S "<" 11 22; G S Parenth [] 11 23; O S "," 11 25; I S "String" 11 27; O S ">" 11 33; O S "=" 11 35] (EBlock [] [] (S 11 37) [(SLocalInit [] [I S "let" 12 13; I S "res" 12 17; O S "=" 12 21] (EMethodCall [] (ELit [] (LStr "error") (S 12 23)) [O S "." 12 30; I S "to_string" 12 31] (S 12 40) [] []) [] None [O S ";" 12 42]); (SExpr (ECall [] (EPath [] (mk_path false [mk_seg "Err" [] (S 13 13)])) (S 13 16) [(EPath [] (mk_path false [mk_seg "res" [] (S 13 17)]))] []) None)]) [] None [O S ";" 14 10]); (SExpr (ECall [] (EPath [] (mk_path false [mk_seg "fallible" [] (S 16 9)])) (S 16 17) [(ETuple [] (S 16 18) [] [])] []) None)]) [] None [O S ";" 17 6]); (SLocalInit [mk_attr false (S 19 5) (MList (mk_path false [mk_seg "hooq" [] (S 19 7); mk_seg "tail_expr_idents" [] (S 19 13)]) Parenth [L S (LStr "Err") 19 30; O S "," 19 35; L S (LStr "fallible") 19 37] (S 19 29))] [I S "let" 20 5; I S "_" 20 9; O S ":" 20 10; I S "Result" 20 12; O S "<" 20 18; G S Parenth [] 20 19; O S "," 20 21; I S "String" 20 23; O S ">" 20 29; O S "=" 20 31] (EBlock [] [] (S 20 33) [(SLocalInit [] [I S "let" 21 9; I S "_" 21 13; O S ":" 21 14; I S "Result" 21 16; O S "<" 21 22; G S Parenth [] 21 23; O S "," 21 25; I S "String" 21 27; O S ">" 21 33; O S "=" 21 35] (EBlock [] [] (S 21 37) [(SLocalInit [] [I S "let" 22 13; I S "res" 22 17; O S "=" 22 21] (EMethodCall [] (ELit [] (LStr "error") (S 22 23)) [O S "." 22 30; I S "to_string" 22 31] (S 22 40) [] []) [] None [O S ";" 22 42]); (SExpr (ECall [] (EPath [] (mk_path false [mk_seg "Err" [] (S 23 13)])) (S 23 16) [(EPath [] (mk_path false [mk_seg "res" [] (S 23 17)]))] []) None)]) [] None [O S ";" 24 10]); (SExpr (ECall [] (EPath [] (mk_path false [mk_seg "fallible" [] (S 26 9)])) (S 26 17) [(ETuple [] (S 26 18) [] [])] []) None)]) [] None [O S ";" 27 6]); (SExpr (ECall [] (EPath [] (mk_path false [mk_seg "Ok" [] (S 29 5)])) (S 29 7) [(ETuple [] (S 29 8) [] [])] []) None)]).
Definition args_tail_expr_idents_main_0 : list meta := let S := at_ "mdbook-source-code/tail_expr_idents/src/main.rs" in [].
Definition rec_tail_expr_idents_main_0 : list string :=
  ["fn main ( ) - > Result < ( ) , String > { let _ : Result < ( ) , String > = { let _ : Result < ( ) , String > = { let res = ""error"" . to_string ( ) ;";
   "Err ( res ) . inspect_err ( | _ | ) } ; fallible ( ( ) ) } ; let _ : Result < ( ) , String > = { let _ : Result < ( ) , String > = { let res = ""error""";
   ". to_string ( ) ; Err ( res ) . inspect_err ( | _ | ) } ; fallible ( ( ) ) . inspect_err ( | _ | ) } ; Ok ( ( ) ) }"].
(** main *)
Example recorded_tail_expr_idents_main_0 : expanded su_tail_expr_idents_main args_tail_expr_idents_main_0 it_tail_expr_idents_main_0 = words rec_tail_expr_idents_main_0.
Proof. vm_compute. reflexivity. Qed.
(** ** mdbook-source-code/trait_use/src/main.rs *)
Definition doc_trait_use_main : list (string * ftable) := [].
Definition texts_trait_use_main : list (string * list tt) := let S := at_ "" in [].
Definition strs_trait_use_main : list (string * string) :=
  [].
Definition ends_trait_use_main : list (N * N * (N * N * string)) :=
  [(3, 9, (13, 2, "")); (4, 24, (6, 6, "")); (5, 20, (5, 26, "")); (8, 42, (12, 6, "")); (9, 20, (9, 26, "")); (9, 35, (11, 10, "")); (15, 15, (15, 23, "")); (15, 45, (17, 2, "")); (16, 7, (16, 12, "")); (19, 2, (19, 34, "")); (19, 7, (19, 33, "")); (19, 17, (19, 32, "")); (20, 2, (20, 29, "")); (20, 15, (20, 28, "")); (20, 25, (20, 27, "")); (21, 8, (21, 10, "")); (21, 21, (21, 23, "")); (21, 53, (25, 2, "")); (22, 13, (22, 17, "")); (22, 14, (22, 16, "")); (24, 7, (24, 11, "")); (24, 8, (24, 10, ""))].
Definition su_trait_use_main : setup := mk_setup (mk_features false false false false false "hooq") doc_trait_use_main texts_trait_use_main strs_trait_use_main [] ends_trait_use_main "main".
Definition it_trait_use_main_0 : item := let S := at_ "mdbook-source-code/trait_use/src/main.rs" in
  (IFn [mk_attr false (S 20 1) (MList (mk_path false [mk_seg "hooq" [] (S 20 3); mk_seg "method" [] (S 20 9)]) Parenth [O S "." 20 16; I S "inserted" 20 17; G S Parenth [] 20 25] (S 20 15))] [] (mk_sig "main" (RetPath (mk_path false [mk_seg "Result" [O S "<" 21 20; G S Parenth [] 21 21; O S "," 21 23; I S "Box" 21 25; O S "<" 21 28; I S "dyn" 21 29; I S "std" 21 33; O S ":" 21 36; O S ":" 21 37; I S "error" 21 38; O S ":" 21 43; O S ":" 21 44; I S "Error" 21 45; O S ">" 21 50; O S ">" 21 51] (S 21 14)])) [I S "fn" 21 1; I S "main" 21 4; G S Parenth [] 21 8; O S "-" 21 11; O S ">" 21 12; I S "Result" 21 14; O S "<" 21 20; G S Parenth [] 21 21; O S "," 21 23; I S "Box" 21 25; O S "<" 21 28; I S "dyn" 21 29; I S "std" 21 33; O S ":" 21 36; O S ":" 21 37; I S "error" 21 38; O S ":" 21 43; O S ":" 21 44; I S "Error" 21 45; O S ">" 21 50; O S ">" 21 51]) (S 21 53) [(SExpr (ETry [] (ECall [] (EPath [] (mk_path false [mk_seg "fallible" [] (S 22 5)])) (S 22 13) [(ETuple [] (S 22 14) [] [])] []) (S 22 17)) (Some (S 22 18))); (SExpr (ECall [] (EPath [] (mk_path false [mk_seg "Ok" [] (S 24 5)])) (S 24 7) [(ETuple [] (S 24 8) [] [])] []) None)]).
Definition args_trait_use_main_0 : list meta := let S := at_ "mdbook-source-code/trait_use/src/main.rs" in [(MList (mk_path false [mk_seg "trait_use" [] (S 19 8)]) Parenth [I S "sub" 19 18; O S ":" 19 21; O S ":" 19 22; I S "Inserted" 19 23] (S 19 17))].
Definition rec_trait_use_main_0 : list string :=
  ["# [ allow ( unused ) ] use sub : : Inserted as _ ; fn main ( ) - > Result < ( ) , Box < dyn std : : error : : Error > > { fallible ( ( ) ) . inserted";
   "( ) ? ; Ok ( ( ) ) }"].
(** main *)
Example recorded_trait_use_main_0 : expanded su_trait_use_main args_trait_use_main_0 it_trait_use_main_0 = words rec_trait_use_main_0.
Proof. vm_compute. reflexivity. Qed.
