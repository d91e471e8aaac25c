(** Recorded expansions of the real macro: snapshots of the excerpt macros.  Generated by conformance/gen.py.  *)
From Coq Require Import String Ascii Bool Arith NArith List.
From Verif Require Import Base Tokens Method Paths Context Flavor Attrs Syntax Conformance.
Import ListNotations.
Open Scope string_scope.
Open Scope list_scope.
Open Scope N_scope.

Definition ends_snap : list (N * N * (N * N * string)) :=
  [(1, 35, (3, 2, "")); (5, 2, (5, 8, "")); (6, 41, (6, 43, "")); (6, 44, (21, 2, "")); (7, 6, (7, 21, "")); (8, 32, (18, 6, "")); (9, 12, (17, 11, "")); (9, 13, (17, 10, "")); (10, 13, (10, 18, """aaa""")); (11, 13, (11, 18, """bbb""")); (12, 13, (12, 18, """ccc""")); (13, 13, (13, 18, """ddd""")); (16, 13, (16, 80, """long string to test truncation behavior in pretty stringify macro""")); (20, 28, (20, 69, "")); (20, 29, (20, 63, """pretty_stringify_without_options""")); (23, 2, (23, 8, "")); (24, 43, (24, 45, "")); (24, 46, (38, 2, "")); (25, 6, (25, 21, "")); (26, 32, (35, 6, "")); (27, 12, (34, 11, "")); (27, 13, (34, 10, "")); (28, 13, (28, 18, """aaa""")); (29, 13, (29, 18, """bbb""")); (30, 13, (30, 18, """ccc""")); (31, 13, (31, 18, """ddd""")); (37, 28, (37, 71, "")); (37, 29, (37, 65, """pretty_stringify_with_line_numbers""")); (40, 2, (40, 8, "")); (41, 38, (41, 40, "")); (41, 41, (56, 2, "")); (43, 6, (43, 21, "")); (44, 32, (54, 6, "")); (45, 12, (53, 11, "")); (45, 13, (53, 10, "")); (46, 13, (46, 18, """aaa""")); (47, 13, (47, 18, """bbb""")); (48, 13, (48, 18, """ccc""")); (49, 13, (49, 18, """ddd""")); (52, 13, (52, 80, """long string to test truncation behavior in pretty stringify macro""")); (55, 28, (55, 66, "")); (55, 29, (55, 60, """pretty_stringify_with_padding""")); (58, 2, (58, 8, "")); (59, 55, (59, 57, "")); (59, 58, (76, 2, "")); (60, 6, (60, 21, "")); (61, 32, (73, 6, "")); (63, 20, (63, 26, """both""")); (64, 12, (72, 11, "")); (64, 13, (72, 10, "")); (65, 13, (65, 18, """aaa""")); (66, 13, (66, 18, """bbb""")); (67, 13, (67, 18, """ccc""")); (68, 13, (68, 18, """ddd""")); (71, 13, (71, 80, """long string to test truncation behavior in pretty stringify macro""")); (75, 28, (75, 83, "")); (75, 29, (75, 77, """pretty_stringify_with_line_numbers_and_padding""")); (78, 2, (78, 8, "")); (79, 62, (79, 64, "")); (79, 65, (96, 2, "")); (80, 6, (80, 21, "")); (81, 32, (93, 6, "")); (83, 20, (83, 28, """bottom""")); (84, 12, (92, 11, "")); (84, 13, (92, 10, "")); (85, 13, (85, 18, """aaa""")); (86, 13, (86, 18, """bbb""")); (87, 13, (87, 18, """ccc""")); (88, 13, (88, 18, """ddd""")); (91, 13, (91, 80, """long string to test truncation behavior in pretty stringify macro""")); (95, 28, (95, 90, "")); (95, 29, (95, 84, """pretty_stringify_with_line_numbers_and_bottom_padding""")); (98, 2, (98, 8, "")); (99, 43, (99, 45, "")); (99, 46, (114, 2, "")); (100, 6, (100, 21, "")); (101, 34, (111, 6, "")); (102, 12, (110, 11, "")); (102, 13, (110, 10, "")); (103, 13, (103, 18, """aaa""")); (104, 13, (104, 18, """bbb""")); (105, 13, (105, 18, """ccc""")); (106, 13, (106, 18, """ddd""")); (109, 13, (109, 82, """long string to test truncation behavior in one line stringify macro""")); (113, 28, (113, 71, "")); (113, 29, (113, 65, """one_line_stringify_without_options""")); (116, 2, (116, 8, "")); (117, 43, (117, 45, "")); (117, 46, (132, 2, "")); (118, 6, (118, 21, "")); (119, 34, (129, 6, "")); (120, 12, (128, 11, "")); (120, 13, (128, 10, "")); (121, 13, (121, 18, """aaa""")); (122, 13, (122, 18, """bbb""")); (123, 13, (123, 18, """ccc""")); (124, 13, (124, 18, """ddd""")); (127, 13, (127, 82, """long string to test truncation behavior in one line stringify macro""")); (131, 28, (131, 71, "")); (131, 29, (131, 65, """one_line_stringify_with_truncation""")); (134, 2, (134, 8, "")); (135, 46, (135, 48, "")); (135, 49, (151, 2, "")); (136, 6, (136, 21, "")); (137, 34, (148, 6, "")); (139, 12, (147, 11, "")); (139, 13, (147, 10, "")); (140, 13, (140, 18, """aaa""")); (141, 13, (141, 18, """bbb""")); (142, 13, (142, 18, """ccc""")); (143, 13, (143, 18, """ddd""")); (146, 13, (146, 82, """long string to test truncation behavior in one line stringify macro""")); (150, 28, (150, 74, "")); (150, 29, (150, 68, """one_line_stringify_with_truncation_30""")); (153, 2, (153, 8, "")); (154, 51, (154, 53, "")); (154, 54, (169, 2, "")); (155, 6, (155, 21, "")); (156, 42, (166, 6, "")); (157, 12, (165, 11, "")); (157, 13, (165, 10, "")); (158, 13, (158, 18, """aaa""")); (159, 13, (159, 18, """bbb""")); (160, 13, (160, 18, """ccc""")); (161, 13, (161, 18, """ddd""")); (164, 13, (164, 90, """long string to test truncation behavior in excerpted pretty stringify macro""")); (168, 28, (168, 79, "")); (168, 29, (168, 73, """excerpted_pretty_stringify_without_options""")); (171, 2, (171, 8, "")); (172, 53, (172, 55, "")); (172, 56, (191, 2, "")); (173, 6, (173, 21, "")); (174, 42, (188, 6, "")); (179, 12, (187, 11, "")); (179, 13, (187, 10, "")); (180, 13, (180, 18, """aaa""")); (181, 13, (181, 18, """bbb""")); (182, 13, (182, 18, """ccc""")); (183, 13, (183, 18, """ddd""")); (186, 13, (186, 90, """long string to test truncation behavior in excerpted pretty stringify macro""")); (190, 28, (190, 81, "")); (190, 29, (190, 75, """excerpted_pretty_stringify_with_full_options""")); (193, 2, (193, 8, "")); (194, 46, (194, 48, "")); (194, 49, (209, 2, "")); (195, 6, (195, 21, "")); (196, 42, (206, 6, "")); (197, 19, (205, 11, "")); (197, 20, (205, 10, "")); (198, 13, (198, 18, """aaa""")); (199, 13, (199, 18, """bbb""")); (200, 13, (200, 18, """ccc""")); (201, 13, (201, 18, """ddd""")); (204, 13, (204, 90, """long string to test truncation behavior in excerpted pretty stringify macro""")); (208, 28, (208, 74, "")); (208, 29, (208, 68, """excerpted_pretty_stringify_for_return""")); (211, 2, (211, 8, "")); (212, 53, (212, 55, "")); (212, 56, (223, 2, "")); (213, 6, (213, 21, "")); (214, 42, (220, 6, "")); (215, 18, (219, 11, "")); (215, 22, (219, 10, "")); (216, 21, (216, 29, """hello!""")); (218, 21, (218, 28, "")); (218, 22, (218, 27, """{s}""")); (222, 28, (222, 81, "")); (222, 29, (222, 75, """excerpted_pretty_stringify_for_question_mark""")); (225, 2, (225, 8, "")); (226, 56, (226, 58, "")); (226, 59, (231, 2, "")); (227, 6, (227, 21, "")); (228, 42, (228, 50, "")); (228, 45, (228, 49, "")); (228, 46, (228, 48, "")); (230, 28, (230, 84, "")); (230, 29, (230, 78, """excerpted_pretty_stringify_for_tailexpr_oneline""")); (233, 2, (233, 8, "")); (234, 54, (234, 56, "")); (234, 57, (239, 2, "")); (235, 6, (235, 21, "")); (236, 42, (236, 57, "")); (236, 52, (236, 56, "")); (236, 53, (236, 55, "")); (238, 28, (238, 82, "")); (238, 29, (238, 76, """excerpted_pretty_stringify_for_return_oneline""")); (241, 2, (241, 8, "")); (242, 61, (242, 63, "")); (242, 64, (247, 2, "")); (243, 6, (243, 21, "")); (244, 42, (244, 51, "")); (244, 47, (244, 49, "")); (246, 28, (246, 89, "")); (246, 29, (246, 83, """excerpted_pretty_stringify_for_question_mark_oneline""")); (249, 2, (249, 8, "")); (250, 57, (250, 59, "")); (250, 60, (256, 2, "")); (251, 6, (251, 21, "")); (252, 42, (253, 13, "")); (252, 45, (253, 12, "")); (253, 5, (253, 11, """aaaa""")); (255, 28, (255, 85, "")); (255, 29, (255, 79, """excerpted_pretty_stringify_for_tailexpr_twolines""")); (258, 2, (258, 8, "")); (259, 55, (259, 57, "")); (259, 58, (265, 2, "")); (260, 6, (260, 21, "")); (261, 42, (262, 13, "")); (261, 52, (262, 12, "")); (262, 5, (262, 11, """aaaa""")); (264, 28, (264, 83, "")); (264, 29, (264, 77, """excerpted_pretty_stringify_for_return_twolines""")); (267, 2, (267, 8, "")); (268, 62, (268, 64, "")); (268, 65, (273, 2, "")); (269, 6, (269, 21, "")); (270, 42, (271, 14, "")); (270, 47, (270, 49, "")); (271, 10, (271, 12, "")); (272, 28, (272, 90, "")); (272, 29, (272, 84, """excerpted_pretty_stringify_for_question_mark_twolines""")); (275, 2, (275, 8, "")); (276, 54, (276, 56, "")); (276, 57, (298, 2, "")); (277, 6, (277, 21, "")); (278, 42, (295, 6, "")); (280, 12, (294, 11, "")); (280, 13, (294, 10, "")); (281, 13, (281, 18, """aaa""")); (282, 13, (282, 18, """bbb""")); (283, 13, (283, 18, """ccc""")); (284, 13, (284, 18, """ddd""")); (285, 13, (285, 18, """eee""")); (286, 13, (286, 18, """fff""")); (287, 13, (287, 18, """ggg""")); (288, 13, (288, 18, """hhh""")); (289, 13, (289, 18, """iii""")); (290, 13, (290, 18, """jjj""")); (291, 13, (291, 18, """kkk""")); (292, 13, (292, 18, """lll""")); (293, 13, (293, 18, """mmm""")); (297, 28, (297, 82, "")); (297, 29, (297, 76, """excerpted_pretty_stringify_long_multilines_30""")); (300, 2, (300, 8, "")); (301, 54, (301, 56, "")); (301, 57, (323, 2, "")); (302, 6, (302, 21, "")); (303, 42, (320, 6, "")); (305, 12, (319, 11, "")); (305, 13, (319, 10, "")); (306, 13, (306, 18, """aaa""")); (307, 13, (307, 18, """bbb""")); (308, 13, (308, 18, """ccc""")); (309, 13, (309, 18, """ddd""")); (310, 13, (310, 18, """eee""")); (311, 13, (311, 18, """fff""")); (312, 13, (312, 18, """ggg""")); (313, 13, (313, 18, """hhh""")); (314, 13, (314, 18, """iii""")); (315, 13, (315, 18, """jjj""")); (316, 13, (316, 18, """kkk""")); (317, 13, (317, 18, """lll""")); (318, 13, (318, 18, """mmm""")); (322, 28, (322, 82, "")); (322, 29, (322, 76, """excerpted_pretty_stringify_long_multilines_10"""))].
Example snapshot_pretty_stringify_without_options : let S := at_ "" in snapshot ends_snap "pretty_stringify"
  [I S "Err" 9 9; G S Parenth [G S Bracket [L S (LStr "aaa") 10 13; O S "," 10 18; L S (LStr "bbb") 11 13; O S "," 11 18; L S (LStr "ccc") 12 13; O S "," 12 18; L S (LStr "ddd") 13 13; O S "," 13 18; L S (LOther "10") 14 13; O S "," 14 15; L S (LOther "42") 15 13; O S "," 15 15; L S (LStr "long string to test truncation behavior in pretty stringify macro") 16 13; O S "," 16 80] 9 13] 9 12]
  = Some "    Err([
            ""aaa"",
            ""bbb"",
            ""ccc"",
            ""ddd"",
            10,
            42,
            ""long string to test truncation behavior in pretty stringify macro"",
        ])".
Proof. vm_compute. reflexivity. Qed.
Example snapshot_pretty_stringify_with_line_numbers : let S := at_ "" in snapshot ends_snap "pretty_stringify"
  [O S "@" 26 33; I S "show_line_num" 26 34; O S "," 26 47; I S "Err" 27 9; G S Parenth [G S Bracket [L S (LStr "aaa") 28 13; O S "," 28 18; L S (LStr "bbb") 29 13; O S "," 29 18; L S (LStr "ccc") 30 13; O S "," 30 18; L S (LStr "ddd") 31 13; O S "," 31 18; L S (LOther "10") 32 13; O S "," 32 15; L S (LOther "42") 33 13; O S "," 33 15] 27 13] 27 12]
  = Some "  27>    Err([
  28|            ""aaa"",
  29|            ""bbb"",
  30|            ""ccc"",
  31|            ""ddd"",
  32|            10,
  33|            42,
  34|        ])".
Proof. vm_compute. reflexivity. Qed.
Example snapshot_pretty_stringify_with_padding : let S := at_ "" in snapshot ends_snap "pretty_stringify"
  [O S "@" 44 33; I S "padding" 44 34; O S "," 44 41; I S "Err" 45 9; G S Parenth [G S Bracket [L S (LStr "aaa") 46 13; O S "," 46 18; L S (LStr "bbb") 47 13; O S "," 47 18; L S (LStr "ccc") 48 13; O S "," 48 18; L S (LStr "ddd") 49 13; O S "," 49 18; L S (LOther "10") 50 13; O S "," 50 15; L S (LOther "42") 51 13; O S "," 51 15; L S (LStr "long string to test truncation behavior in pretty stringify macro") 52 13; O S "," 52 80] 45 13] 45 12]
  = Some "    Err([
            ""aaa"",
            ""bbb"",
            ""ccc"",
            ""ddd"",
            10,
            42,
            ""long string to test truncation behavior in pretty stringify macro"",
        ])".
Proof. vm_compute. reflexivity. Qed.
Example snapshot_pretty_stringify_with_line_numbers_and_padding : let S := at_ "" in snapshot ends_snap "pretty_stringify"
  [O S "@" 62 9; I S "show_line_num" 62 10; O S "," 62 23; O S "@" 63 9; I S "padding" 63 10; O S "=" 63 18; L S (LStr "both") 63 20; I S "Err" 64 9; G S Parenth [G S Bracket [L S (LStr "aaa") 65 13; O S "," 65 18; L S (LStr "bbb") 66 13; O S "," 66 18; L S (LStr "ccc") 67 13; O S "," 67 18; L S (LStr "ddd") 68 13; O S "," 68 18; L S (LOther "10") 69 13; O S "," 69 15; L S (LOther "42") 70 13; O S "," 70 15; L S (LStr "long string to test truncation behavior in pretty stringify macro") 71 13; O S "," 71 80] 64 13] 64 12]
  = Some "    |
  64>    Err([
  65|            ""aaa"",
  66|            ""bbb"",
  67|            ""ccc"",
  68|            ""ddd"",
  69|            10,
  70|            42,
  71|            ""long string to test truncation behavior in pretty stringify macro"",
  72|        ])
    |".
Proof. vm_compute. reflexivity. Qed.
Example snapshot_pretty_stringify_with_line_numbers_and_bottom_padding : let S := at_ "" in snapshot ends_snap "pretty_stringify"
  [O S "@" 82 9; I S "show_line_num" 82 10; O S "," 82 23; O S "@" 83 9; I S "padding" 83 10; O S "=" 83 18; L S (LStr "bottom") 83 20; I S "Err" 84 9; G S Parenth [G S Bracket [L S (LStr "aaa") 85 13; O S "," 85 18; L S (LStr "bbb") 86 13; O S "," 86 18; L S (LStr "ccc") 87 13; O S "," 87 18; L S (LStr "ddd") 88 13; O S "," 88 18; L S (LOther "10") 89 13; O S "," 89 15; L S (LOther "42") 90 13; O S "," 90 15; L S (LStr "long string to test truncation behavior in pretty stringify macro") 91 13; O S "," 91 80] 84 13] 84 12]
  = Some "  84>    Err([
  85|            ""aaa"",
  86|            ""bbb"",
  87|            ""ccc"",
  88|            ""ddd"",
  89|            10,
  90|            42,
  91|            ""long string to test truncation behavior in pretty stringify macro"",
  92|        ])
    |".
Proof. vm_compute. reflexivity. Qed.
Example snapshot_one_line_stringify_without_options : let S := at_ "" in snapshot ends_snap "one_line_stringify"
  [I S "Err" 102 9; G S Parenth [G S Bracket [L S (LStr "aaa") 103 13; O S "," 103 18; L S (LStr "bbb") 104 13; O S "," 104 18; L S (LStr "ccc") 105 13; O S "," 105 18; L S (LStr "ddd") 106 13; O S "," 106 18; L S (LOther "10") 107 13; O S "," 107 15; L S (LOther "42") 108 13; O S "," 108 15; L S (LStr "long string to test truncation behavior in one line stringify macro") 109 13; O S "," 109 82] 102 13] 102 12]
  = Some "Err([ ""aaa"", ""bbb"", ""ccc"", ""ddd"", 10, 42, ""long string to test truncation behavior in one line stringify macro"", ])".
Proof. vm_compute. reflexivity. Qed.
Example snapshot_one_line_stringify_with_truncation : let S := at_ "" in snapshot ends_snap "one_line_stringify"
  [O S "@" 119 35; I S "truncate_str" 119 36; O S "," 119 48; I S "Err" 120 9; G S Parenth [G S Bracket [L S (LStr "aaa") 121 13; O S "," 121 18; L S (LStr "bbb") 122 13; O S "," 122 18; L S (LStr "ccc") 123 13; O S "," 123 18; L S (LStr "ddd") 124 13; O S "," 124 18; L S (LOther "10") 125 13; O S "," 125 15; L S (LOther "42") 126 13; O S "," 126 15; L S (LStr "long string to test truncation behavior in one line stringify macro") 127 13; O S "," 127 82] 120 13] 120 12]
  = Some "Err([ ""aaa"", ""bbb"", ""ccc"", ""ddd"", 10, 42, ""long..acro"", ])".
Proof. vm_compute. reflexivity. Qed.
Example snapshot_one_line_stringify_with_truncation_30 : let S := at_ "" in snapshot ends_snap "one_line_stringify"
  [O S "@" 138 9; I S "truncate_str" 138 10; O S "=" 138 23; L S (LUsize 30) 138 25; I S "Err" 139 9; G S Parenth [G S Bracket [L S (LStr "aaa") 140 13; O S "," 140 18; L S (LStr "bbb") 141 13; O S "," 141 18; L S (LStr "ccc") 142 13; O S "," 142 18; L S (LStr "ddd") 143 13; O S "," 143 18; L S (LOther "10") 144 13; O S "," 144 15; L S (LOther "42") 145 13; O S "," 145 15; L S (LStr "long string to test truncation behavior in one line stringify macro") 146 13; O S "," 146 82] 139 13] 139 12]
  = Some "Err([ ""aaa"", ""bbb"", ""ccc"", ""ddd"", 10, 42, ""long string to..tringify macro"", ])".
Proof. vm_compute. reflexivity. Qed.
Example snapshot_excerpted_pretty_stringify_without_options : let S := at_ "" in snapshot ends_snap "excerpted_pretty_stringify"
  [I S "Err" 157 9; G S Parenth [G S Bracket [L S (LStr "aaa") 158 13; O S "," 158 18; L S (LStr "bbb") 159 13; O S "," 159 18; L S (LStr "ccc") 160 13; O S "," 160 18; L S (LStr "ddd") 161 13; O S "," 161 18; L S (LOther "10") 162 13; O S "," 162 15; L S (LOther "42") 163 13; O S "," 163 15; L S (LStr "long string to test truncation behavior in excerpted pretty stringify macro") 164 13; O S "," 164 90] 157 13] 157 12]
  = Some " 157>    Err([
...
 162|            10,
 163|            42,
 164|            ""long..acro"",
 165|        ])
    |".
Proof. vm_compute. reflexivity. Qed.
Example snapshot_excerpted_pretty_stringify_with_full_options : let S := at_ "" in snapshot ends_snap "excerpted_pretty_stringify"
  [O S "@" 175 9; I S "excerpt_line" 175 10; O S "=" 175 23; L S (LUsize 4) 175 25; O S "," 175 26; O S "@" 176 9; I S "truncate_str" 176 10; O S "," 176 22; O S "@" 177 9; I S "show_line_num" 177 10; O S "," 177 23; O S "@" 178 9; I S "padding" 178 10; O S "," 178 17; I S "Err" 179 9; G S Parenth [G S Bracket [L S (LStr "aaa") 180 13; O S "," 180 18; L S (LStr "bbb") 181 13; O S "," 181 18; L S (LStr "ccc") 182 13; O S "," 182 18; L S (LStr "ddd") 183 13; O S "," 183 18; L S (LOther "10") 184 13; O S "," 184 15; L S (LOther "42") 185 13; O S "," 185 15; L S (LStr "long string to test truncation behavior in excerpted pretty stringify macro") 186 13; O S "," 186 90] 179 13] 179 12]
  = Some "    |
 179>    Err([
...
 185|            42,
 186|            ""long..acro"",
 187|        ])
    |".
Proof. vm_compute. reflexivity. Qed.
Example snapshot_excerpted_pretty_stringify_for_return : let S := at_ "" in snapshot ends_snap "excerpted_pretty_stringify"
  [I S "return" 197 9; I S "Err" 197 16; G S Parenth [G S Bracket [L S (LStr "aaa") 198 13; O S "," 198 18; L S (LStr "bbb") 199 13; O S "," 199 18; L S (LStr "ccc") 200 13; O S "," 200 18; L S (LStr "ddd") 201 13; O S "," 201 18; L S (LOther "10") 202 13; O S "," 202 15; L S (LOther "42") 203 13; O S "," 203 15; L S (LStr "long string to test truncation behavior in excerpted pretty stringify macro") 204 13; O S "," 204 90] 197 20] 197 19]
  = Some " 197>    return Err([
...
 202|            10,
 203|            42,
 204|            ""long..acro"",
 205|        ])
    |".
Proof. vm_compute. reflexivity. Qed.
Example snapshot_excerpted_pretty_stringify_for_question_mark : let S := at_ "" in snapshot ends_snap "excerpted_pretty_stringify"
  [I S "func_call" 215 9; G S Parenth [O S "|" 215 19; O S "|" 215 20; G S Brace [I S "let" 216 13; I S "s" 216 17; O S "=" 216 19; L S (LStr "hello!") 216 21; O S ";" 216 29; I S "println" 218 13; O S "!" 218 20; G S Parenth [L S (LStr "{s}") 218 22] 218 21; O S ";" 218 28] 215 22] 215 18; O S "?" 219 11]
  = Some " 215>    func_call(|| {
 216|            let s = ""hello!"";
 217|
 218|            println!(""{s}"");
 219|        })?
    |".
Proof. vm_compute. reflexivity. Qed.
Example snapshot_excerpted_pretty_stringify_for_tailexpr_oneline : let S := at_ "" in snapshot ends_snap "excerpted_pretty_stringify"
  [I S "Ok" 228 43; G S Parenth [G S Parenth [] 228 46] 228 45]
  = Some " 228>    Ok(())
    |".
Proof. vm_compute. reflexivity. Qed.
Example snapshot_excerpted_pretty_stringify_for_return_oneline : let S := at_ "" in snapshot ends_snap "excerpted_pretty_stringify"
  [I S "return" 236 43; I S "Ok" 236 50; G S Parenth [G S Parenth [] 236 53] 236 52]
  = Some " 236>    return Ok(())
    |".
Proof. vm_compute. reflexivity. Qed.
Example snapshot_excerpted_pretty_stringify_for_question_mark_oneline : let S := at_ "" in snapshot ends_snap "excerpted_pretty_stringify"
  [I S "hoge" 244 43; G S Parenth [] 244 47; O S "?" 244 49]
  = Some " 244>    hoge()?
    |".
Proof. vm_compute. reflexivity. Qed.
Example snapshot_excerpted_pretty_stringify_for_tailexpr_twolines : let S := at_ "" in snapshot ends_snap "excerpted_pretty_stringify"
  [I S "Ok" 252 43; G S Parenth [L S (LStr "aaaa") 253 5] 252 45]
  = Some " 252>    Ok(
 253|    ""aaaa"")
    |".
Proof. vm_compute. reflexivity. Qed.
Example snapshot_excerpted_pretty_stringify_for_return_twolines : let S := at_ "" in snapshot ends_snap "excerpted_pretty_stringify"
  [I S "return" 261 43; I S "Ok" 261 50; G S Parenth [L S (LStr "aaaa") 262 5] 261 52]
  = Some " 261>    return Ok(
 262|    ""aaaa"")
    |".
Proof. vm_compute. reflexivity. Qed.
Example snapshot_excerpted_pretty_stringify_for_question_mark_twolines : let S := at_ "" in snapshot ends_snap "excerpted_pretty_stringify"
  [I S "hoge" 270 43; G S Parenth [] 270 47; O S "." 271 5; I S "fuga" 271 6; G S Parenth [] 271 10; O S "?" 271 12]
  = Some " 270>    hoge()
 271|    .fuga()?
    |".
Proof. vm_compute. reflexivity. Qed.
Example snapshot_excerpted_pretty_stringify_long_multilines_30 : let S := at_ "" in snapshot ends_snap "excerpted_pretty_stringify"
  [O S "@" 279 9; I S "excerpt_line" 279 10; O S "=" 279 23; L S (LUsize 30) 279 25; O S "," 279 27; I S "Err" 280 9; G S Parenth [G S Bracket [L S (LStr "aaa") 281 13; O S "," 281 18; L S (LStr "bbb") 282 13; O S "," 282 18; L S (LStr "ccc") 283 13; O S "," 283 18; L S (LStr "ddd") 284 13; O S "," 284 18; L S (LStr "eee") 285 13; O S "," 285 18; L S (LStr "fff") 286 13; O S "," 286 18; L S (LStr "ggg") 287 13; O S "," 287 18; L S (LStr "hhh") 288 13; O S "," 288 18; L S (LStr "iii") 289 13; O S "," 289 18; L S (LStr "jjj") 290 13; O S "," 290 18; L S (LStr "kkk") 291 13; O S "," 291 18; L S (LStr "lll") 292 13; O S "," 292 18; L S (LStr "mmm") 293 13; O S "," 293 18] 280 13] 280 12]
  = Some " 280>    Err([
 281|            ""aaa"",
 282|            ""bbb"",
 283|            ""ccc"",
 284|            ""ddd"",
 285|            ""eee"",
 286|            ""fff"",
 287|            ""ggg"",
 288|            ""hhh"",
 289|            ""iii"",
 290|            ""jjj"",
 291|            ""kkk"",
 292|            ""lll"",
 293|            ""mmm"",
 294|        ])
    |".
Proof. vm_compute. reflexivity. Qed.
Example snapshot_excerpted_pretty_stringify_long_multilines_10 : let S := at_ "" in snapshot ends_snap "excerpted_pretty_stringify"
  [O S "@" 304 9; I S "excerpt_line" 304 10; O S "=" 304 23; L S (LUsize 10) 304 25; O S "," 304 27; I S "Err" 305 9; G S Parenth [G S Bracket [L S (LStr "aaa") 306 13; O S "," 306 18; L S (LStr "bbb") 307 13; O S "," 307 18; L S (LStr "ccc") 308 13; O S "," 308 18; L S (LStr "ddd") 309 13; O S "," 309 18; L S (LStr "eee") 310 13; O S "," 310 18; L S (LStr "fff") 311 13; O S "," 311 18; L S (LStr "ggg") 312 13; O S "," 312 18; L S (LStr "hhh") 313 13; O S "," 313 18; L S (LStr "iii") 314 13; O S "," 314 18; L S (LStr "jjj") 315 13; O S "," 315 18; L S (LStr "kkk") 316 13; O S "," 316 18; L S (LStr "lll") 317 13; O S "," 317 18; L S (LStr "mmm") 318 13; O S "," 318 18] 305 13] 305 12]
  = Some " 305>    Err([
...
 311|            ""fff"",
 312|            ""ggg"",
 313|            ""hhh"",
 314|            ""iii"",
 315|            ""jjj"",
 316|            ""kkk"",
 317|            ""lll"",
 318|            ""mmm"",
 319|        ])
    |".
Proof. vm_compute. reflexivity. Qed.
