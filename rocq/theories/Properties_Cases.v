(** Computed cases of the attribute reader, the method parser, the meta variables and hooq.toml against answers written by hand.

    The programs of [Properties_Catalogue] go through the walker; the cases here call the parts. *)
From Coq Require Import String Ascii Bool Arith NArith List.
From Verif Require Import Base Tokens Method Paths Context Flavor Attrs Syntax Render Walker TomlStore RootAttr EvalList Excerpt ExcerptArgs Properties_Attrs Properties_Flavor.
Import ListNotations.
Open Scope string_scope.
Open Scope list_scope.

(** ** The attribute reader *)
(** method, hook_targets, tail_expr_idents, ignored ones, result_types, hook_in_macros, bindings, skip, skip_all *)
Definition fields (i : inert) := (in_method i, in_targets i, in_tails i, in_ignores i, in_results i, in_macros i, in_bindings i, in_skip i, in_skip_all i).
Definition read (l : list attr) := match extract xa_env l with Ok (i, []) => Some (fields i) | _ => None end.
Definition nothing := (@None method, @None switch, @None (list string), @None (list string), @None (list string), @None bool, @nil (string * list tt), false, false).
Definition my : mvalue := VPath (xa_path ["my"]).
Definition my_method : method := Insert call_site [qi "log"] false.
Definition my_targets : switch := mk_switch true false true.
Definition my_bindings : list (string * list tt) := [("k", [qi "v"])].
(** [flavor = my] takes every setting of the flavor, [x = my] only [x] *)
Example C07_ex_flavor : read [xa_set "flavor" my] =
  Some (Some my_method, Some my_targets, Some ["Err"; "bail"], Some ["Fine"], Some ["Res"], Some false, my_bindings, false, false).
Proof. vm_compute. reflexivity. Qed.
Example C07_ex_one :
  map (fun n => read [xa_set n my]) ["method"; "hook_targets"; "tail_expr_idents"; "result_types"; "hook_in_macros"; "bindings"] =
  [Some (Some my_method, None, None, None, None, None, [], false, false);
   Some (None, Some my_targets, None, None, None, None, [], false, false);
   Some (None, None, Some ["Err"; "bail"], Some ["Fine"], None, None, [], false, false);
   Some (None, None, None, None, Some ["Res"], None, [], false, false);
   Some (None, None, None, None, None, Some false, [], false, false);
   Some (None, None, None, None, None, None, my_bindings, false, false)].
Proof. vm_compute. reflexivity. Qed.
Example C21_ex_assign : extract xa_env [xa_set "ignore_tail_expr_idents" my] = Err ErrIgnoreAssign.
Proof. reflexivity. Qed.
Definition flag_ (ts : list tt) : attr := xa (MList (xa_path ["hooq"; "hook_in_macros"]) Parenth ts call_site).
Example C22_ex_flag : map (fun ts => read [flag_ ts]) [[qi "yes"]; []; [qi "true"; qi "true"]] =
    [None; None; None] /\
  read [flag_ [qi "true"]] = Some (None, None, None, None, None, Some true, [], false, false) /\
  read [flag_ [qi "false"]] = Some (None, None, None, None, None, Some false, [], false, false) /\
  read [flag_ [qi "false"]; flag_ [qi "true"]] = Some (None, None, None, None, None, Some true, [], false, false).
Proof. repeat split; vm_compute; reflexivity. Qed.
(** the later binding of a name wins, against a flavor too *)
Example C08_ex_later :
  option_map (fun x => let '(_, b, _, _) := x in (mget "k" b, mget "j" b)) (read [xa_set "k" (VStr "one" call_site); xa_set "j" my; xa_set "k" (VStr "two" call_site)]) =
    Some (Some [qs "two"], Some [qi "my"]) /\
  option_map (fun x => let '(_, b, _, _) := x in mget "k" b) (read [xa_set "k" (VStr "one" call_site); xa_set "flavor" my]) = Some (Some [qi "v"]) /\
  option_map (fun x => let '(_, b, _, _) := x in mget "k" b) (read [xa_set "flavor" my; xa_set "k" (VStr "one" call_site)]) = Some (Some [qs "one"]).
Proof. repeat split; vm_compute; reflexivity. Qed.
Example C05_ex_words : read [xa_word ["hooq"; "skip"]] = Some (None, None, None, None, None, None, [], true, false) /\
  read [xa_word ["hooq"; "skip_all"]] = Some (None, None, None, None, None, None, [], false, true) /\ read [] = Some nothing.
Proof. repeat split; vm_compute; reflexivity. Qed.
(** a list of names sets, a list of ignored names adds; a flavor starts afresh *)
Example C20_ex_lists :
  read [xa_list "tail_expr_idents" ["Err"; "!Ok"]; xa_list "ignore_tail_expr_idents" ["Fine"]; xa_list "tail_expr_idents" ["bail"; "!No"]] =
    Some (None, None, Some ["bail"], Some ["Ok"; "Fine"; "No"], None, None, [], false, false) /\
  read [xa_list "tail_expr_idents" ["Err"; "!Ok"]; xa_set "tail_expr_idents" my] =
    Some (None, None, Some ["Err"; "bail"], Some ["Fine"], None, None, [], false, false) /\
  read [xa_list "tail_expr_idents" ["Err"]] = Some (None, None, Some ["Err"], None, None, None, [], false, false) /\
  read [xa_list "ignore_tail_expr_idents" []] = Some (None, None, None, Some [], None, None, [], false, false) /\
  read [xa_list "result_types" ["A"; "!B"]] = Some (None, None, None, None, Some ["A"; "!B"], None, [], false, false).
Proof. repeat split; vm_compute; reflexivity. Qed.

(** ** The method parser *)
Example C41_ex_parse :
  let m := [qi "wrap"; qg Parenth [qp "$"; qi "expr"]] in
  parse_method false (m ++ [qp "!"]) = Replace (m ++ [qp "!"]) false /\ parse_method true (m ++ [qp "!"]) = Replace m true /\
  parse_method true m = Replace m false /\ parse_method false m = Replace m false /\
  parse_method false (qp "." :: m ++ [qp "!"]) = Insert call_site (m ++ [qp "!"]) false /\ parse_method true (qp "." :: m ++ [qp "!"]) = Insert call_site m true /\
  parse_method true (qp "." :: m) = Insert call_site m false.
Proof. repeat split; vm_compute; reflexivity. Qed.

(** ** The meta variables *)
Definition there : span := mk_span "a/b/c.rs" 3 7.
Definition v_sig : sig := mk_sig "go" RetNone [qi "fn"; qi "go"].
Definition v_ctx (m : field method) : ctx :=
  {| cx_method := m; cx_targets := field_new (mk_switch true true true); cx_tails := field_new ["Err"]; cx_ignores := field_new ["Ok"];
     cx_results := field_new ["Result"]; cx_macros := field_new true; cx_bindings := Field [("x", [qi "two"]); ("y", [qi "w"])] (Some (Field [("x", [qi "one"])] None));
     cx_skip := field_new None; cx_fn := field_new (Some (FnInfo v_sig)) |}.
Definition v_str (ts : list tt) : string := fold_right (fun t s => (match t with TIdent n _ => n | _ => "?" end ++ "." ++ s)%string) "" ts.
Definition value (s : string) : res (list tt) := meta_var_toks v_str (v_ctx (field_new (Replace [] false))) Return 3 [qi "src"; qi "e"] [qi "e"] there (Ok [qi "so"]) s.
Example C14_ex_values : map value ["line"; "column"; "col"; "path"; "file"; "expr"; "source"; "nth"; "count"; "fnname"; "fn_name"; "fnsig"; "fn_sig"; "sofar"; "so_far"; "x"; "y"] =
  [Ok [TLit (LUsize 3) call_site]; Ok [TLit (LUsize 7) call_site]; Ok [TLit (LUsize 7) call_site]; Ok [qs "a/b/c.rs"]; Ok [qs "c.rs"]; Ok [qi "e"]; Ok [qi "src"; qi "e"];
   Ok [qs "3rd return"]; Ok [qs "3rd return"]; Ok [qs "go"]; Ok [qs "go"]; Ok [qs "fn.go."]; Ok [qs "fn.go."]; Ok [qi "so"]; Ok [qi "so"]; Ok [qi "two"]; Ok [qi "w"]].
Proof. vm_compute. reflexivity. Qed.
Definition colons (l : list string) : list tt := flat_map (fun n => [qp ":"; qp ":"; qi n]) l.
Definition pair_ (k e : string) (v : list tt) : tt :=
  qg Parenth (colons ["std"; "string"; "ToString"; "to_string"] ++ [qg Parenth [qs k]; qp ",";
    qg Brace ([qi "let"; qi "expr"; qp "="] ++ colons ["std"; "string"; "ToString"; "to_string"] ++ [qg Parenth [qs e]; qp ";";
      qi "let"; qi "value"; qp ":"] ++ colons ["std"; "rc"; "Rc"] ++ [qp "<"; qi "dyn"] ++ colons ["std"; "any"; "Any"] ++ [qp ">"; qp "="] ++ colons ["std"; "rc"; "Rc"; "new"] ++
      [qg Parenth v; qp ";"] ++ colons ["hooq"; "BindingPayload"] ++ [qg Brace [qi "expr"; qp ","; qi "value"; qp ","]])]).
Definition pairs_ : list tt :=
  colons ["std"; "collections"; "HashMap"; "from"] ++ [qg Parenth [qg Bracket [pair_ "x" "two." [qi "two"]; qp ","; pair_ "y" "w." [qi "w"]]]].
Example C37_ex_values : value "bindings" = Ok pairs_ /\ value "vars" = Ok pairs_ /\ value "hooqmeta" = value "hooq_meta" /\
  value "hooq_meta" = Ok (colons ["hooq"; "HooqMeta"] ++ [qg Brace (
    [qi "line"; qp ":"; TLit (LUsize 3) call_site; qp ","; qi "column"; qp ":"; TLit (LUsize 7) call_site; qp ",";
     qi "path"; qp ":"; qs "a/b/c.rs"; qp ","; qi "file"; qp ":"; qs "c.rs"; qp ",";
     qi "source_str"; qp ":"; qs "src.e."; qp ","; qi "count"; qp ":"; qs "3rd return"; qp ","; qi "bindings"; qp ":"] ++ pairs_ ++ [qp ","])]).
Proof. repeat split; vm_compute; reflexivity. Qed.
Example C16_ex_unknown : value "z" = Err (ErrUnknownVar "z" ["x"; "y"] ["line"; "column"; "path"; "file"; "expr"; "source"; "count"; "fn_name"; "fn_sig"; "so_far"; "bindings"; "hooq_meta"]).
Proof. vm_compute. reflexivity. Qed.

(** ** Rendering *)
(** the tokens of the template, outside groups, get the position of the target; groups keep their delimiter; a variable is replaced once *)
Definition rt (m : field method) : res (list tt) := render_toks v_str (v_ctx m) Question 1 [qi "src"] [TIdent "e" call_site; qp "?"] there.
Definition outer : list tt := [qi "f"; qg Brace [qi "g"; qg Bracket [qp "$"; qi "x"; qp ","; qp "$"; qi "line"]; qg Parenth [qp "$"; qi "so_far"]]; qp ";"].
Definition inner : list tt := [qi "h"; qp "$"; qi "y"].
Example C14_ex_render :
  let body := [qi "g"; qg Bracket [qi "two"; qp ","; TLit (LUsize 3) call_site]; qg Parenth [qi "h"; qi "w"]] in
  rt (Field (Replace outer false) (Some (Field (Insert call_site inner false) None))) = Ok [TIdent "f" there; TGroup Brace body there; TPunct ";" there] /\
  rt (Field (Insert call_site outer false) (Some (Field (Replace inner false) None))) =
    Ok [qi "e"; qp "?"; qp "."; TIdent "f" there; TGroup Brace body there; TPunct ";" there] /\
  rt (Field (Replace outer false) None) = Err ErrNoSoFar /\
  rt (Field (Replace [qp "$"; qp "$"; qi "x"] false) None) = Err ErrDollar /\ rt (Field (Replace [qp "$"; qg Parenth []] false) None) = Err ErrDollar.
Proof. repeat split; vm_compute; reflexivity. Qed.

(** ** hooq.toml *)
Definition base_ : fcore := mk_fcore [xa_path ["T"]] (Replace [qi "old"] false) (mk_switch true false false) ["Err"] ["Ok"] ["Result"] false [("a", [qi "one"])].
Definition table_ (t : tcore) := apply_table ex_pp ex_pt ex_pt false t base_.
(** what is not given is inherited, except [trait_uses] *)
Example C24_ex_inherit : table_ tc0 = Ok (mk_fcore [] (Replace [qi "old"] false) (mk_switch true false false) ["Err"] ["Ok"] ["Result"] false [("a", [qi "one"])]).
Proof. vm_compute. reflexivity. Qed.
Example C24_ex_each :
  map (fun t => match table_ t with Ok f => Some (fl_method f, fl_targets f, fl_tails f, fl_ignores f, fl_results f, fl_macros f, fl_bindings f) | _ => None end)
    [mk_tcore [] (Some "m") None None None None None []; mk_tcore [] None (Some ["return"]) None None None None []; mk_tcore [] None None (Some ["bail"; "!No"]) None None None [];
     mk_tcore [] None None (Some ["bail"]) None None None [];
     mk_tcore [] None None None (Some ["Fine"]) None None []; mk_tcore [] None None (Some ["bail"; "!No"]) (Some ["Fine"]) None None [];
     mk_tcore [] None None None None (Some ["Res"]) None []; mk_tcore [] None None None None None (Some true) []; mk_tcore [] None None None None None None [("b", "two"); ("a", "three")];
     mk_tcore [] None (Some ["nope"]) None None None None []] =
  let m := Replace [qi "old"] false in let w := mk_switch true false false in
  [Some (Replace [qi "m"] false, w, ["Err"], ["Ok"], ["Result"], false, [("a", [qi "one"])]);
   Some (m, mk_switch false true false, ["Err"], ["Ok"], ["Result"], false, [("a", [qi "one"])]);
   Some (m, w, ["bail"], ["No"], ["Result"], false, [("a", [qi "one"])]);
   Some (m, w, ["bail"], ["Ok"], ["Result"], false, [("a", [qi "one"])]);
   Some (m, w, ["Err"], ["Fine"], ["Result"], false, [("a", [qi "one"])]);
   Some (m, w, ["bail"], ["No"; "Fine"], ["Result"], false, [("a", [qi "one"])]);
   Some (m, w, ["Err"], ["Ok"], ["Res"], false, [("a", [qi "one"])]);
   Some (m, w, ["Err"], ["Ok"], ["Result"], true, [("a", [qi "one"])]);
   Some (m, w, ["Err"], ["Ok"], ["Result"], false, [("a", [qi "three"]); ("b", [qi "two"])]);
   None].
Proof. vm_compute. reflexivity. Qed.
Example C27_ex_toml : store_try_from ex_pp ex_pt ex_pt false ex_ft [("base", FTable ex_base []); ("empty", FTable tc0 [])] = Err ErrOverrideEmpty /\
  store_try_from ex_pp ex_pt ex_pt false ex_ft [("base", FTable ex_base [("empty", FTable tc0 [])])] = Err ErrOverrideEmpty /\
  store_try_from ex_pp ex_pt ex_pt false ex_ft [("", FTable tc0 [])] = Err ErrEmptyFlavorName.
Proof. repeat split; vm_compute; reflexivity. Qed.
Definition names (r : res flavor) : option (list string) := match r with Err (ErrFlavorNotFound p l) => Some p | _ => None end.
Example C28_ex_missing : map (fun p => names (get_flavor ex_store p)) [["base"; "sub"]; ["base"; "none"]; ["base"; "sub"; "none"]; ["none"]; ["none"; "sub"]; ["log"; "error"]; ["sub"]] =
  [None; Some ["base"; "none"]; Some ["base"; "sub"; "none"]; Some ["none"]; Some ["none"; "sub"]; None; Some ["sub"]].
Proof. vm_compute. reflexivity. Qed.

(** ** The arguments of [#[hooq(..)]] *)
Definition seg_ (n : string) : path := mk_path false [seg1 n].
Definition paths_ (ts : list tt) : option (list path) := Some (flat_map (fun t => match t with TIdent n _ => [seg_ n] | _ => [] end) ts).
Definition uses_ (n : string) (l : list string) : meta := MList (seg_ n) Parenth (map qi l) call_site.
Definition look_ (p : list string) : res fcore := match p with
  | ["default"] => Ok (mk_fcore [seg_ "D"] (Replace [qi "d"] false) (mk_switch true true true) [] [] [] true [])
  | ["my"; "sub"] => Ok (mk_fcore [seg_ "M"] (Replace [qi "m"] false) (mk_switch true true true) [] [] [] true [])
  | _ => Err (ErrFlavorNotFound p []) end.
Definition root_ (l : list meta) : option (list string * method) :=
  match bindR (parse_root paths_ l) (root_load look_) with Ok r => Some (flat_map (fun p => map seg_id (p_segs p)) (rc_traits r), fl_method (rc_core r)) | _ => None end.
Example C29_ex_args :
  root_ [] = Some (["D"], Replace [qi "d"] false) /\
  root_ [uses_ "trait_use" ["A"; "B"]; uses_ "trait_uses" ["C"]] = Some (["A"; "B"; "C"; "D"], Replace [qi "d"] false) /\
  root_ [MPath (mk_path false [seg1 "my"; seg1 "sub"]); uses_ "trait_use" ["A"]] = Some (["A"; "M"], Replace [qi "m"] false) /\
  root_ [MNameValue (seg_ "flavor") (VStr "my.sub" call_site)] = Some (["M"], Replace [qi "m"] false) /\
  root_ [MPath (mk_path false [seg1 "my"; seg1 "sub"]); MNameValue (seg_ "flavor") (VStr "default" call_site)] = Some (["D"], Replace [qi "d"] false) /\
  map root_ [[MNameValue (seg_ "flavour") (VStr "default" call_site)]; [MNameValue (seg_ "flavor") (VPath (seg_ "default"))]; [uses_ "uses" ["A"]]; [MPath (seg_ "nope")]] = [None; None; None; None].
Proof. repeat split; vm_compute; reflexivity. Qed.

(** ** Macro arguments *)
(** an expression is a name or a group, a statement [let x], an item [fn], a file nothing *)
Definition name_ (n : string) : expr := EPath [] (seg_ n).
Definition ps_ : parsers := mk_parsers
  (fun _ => None)
  (fun ts => match ts with TIdent "fn" _ :: r => Some (IOther [] [qi "fn"], r) | _ => None end)
  (fun ts => match ts with TIdent "let" _ :: _ => None | TIdent n _ :: r => Some (name_ n, r) | _ => None end)
  (fun ts => match ts with TIdent "let" _ :: TIdent n _ :: r => Some (SExpr (name_ n) None, r) | _ => None end).
Example C22_ex_list :
  parse_list ps_ 20 [qi "a"; qp ","; qi "b"; qp ";"; qi "let"; qi "x"; qp ";"; qi "fn"; qp ","; qi "c"] =
    Some (Some [VExpr (name_ "a") [qp ","]; VExpr (name_ "b") [qp ";"]; VStmt (SExpr (name_ "x") None) [qp ";"]; VItem (IOther [] [qi "fn"]) [qp ","]; VExpr (name_ "c") []]) /\
  parse_list ps_ 20 [qi "a"; qp "="; qp ">"; qi "b"] = Some None /\ parse_list ps_ 20 [qi "a"; qi "b"] = Some None /\ parse_list ps_ 20 [qi "a"; qp ","; qp ","] = Some None /\
  parse_list ps_ 20 [qi "a"; qp ","] = Some (Some [VExpr (name_ "a") [qp ","]]) /\ parse_list ps_ 20 [] = Some (Some []).
Proof. repeat split; vm_compute; reflexivity. Qed.

(** ** Excerpts *)
(** [n] lines, one token each *)
Definition column_ (n : nat) : pexpr := mk_pexpr (map (fun i => PLeaf (chars "x") i 1 2) (seq 1 n)) 1 n.
Definition x_ : text := chars "x".
Definition shown (max n : nat) : option (list text) :=
  match excerpted_pretty_str (fun x => x) (column_ n) (mk_es max NoTruncation (mk_ps false false false)) with Ok t => Some (lines t) | _ => None end.
Example C33_ex_sizes :
  map (shown 3) [1; 2; 3; 4; 9] =
    [Some [chars "    x"]; Some [chars "    x"; x_]; Some [chars "    x"; x_; x_]; Some [chars "    x"; chars "..."; x_; x_]; Some [chars "    x"; chars "..."; x_; x_]] /\
  map (shown 2) [1; 2; 3] = [Some [chars "    x"]; Some [chars "    x"; x_]; Some [chars "    x"; chars "..."; x_]] /\
  map (shown 1) [1; 2] = [Some [chars "    x"]; Some [x_]] /\ shown 0 2 = None /\
  shown 4 5 = Some [chars "    x"; chars "..."; x_; x_; x_].
Proof. repeat split; vm_compute; reflexivity. Qed.
(** the options: excerpt_line, truncate_str, show_line_num, padding, and what is left *)
Definition opt_ (n : string) (v : list tt) : list tt := qp "@" :: qi n :: v ++ [qp ","].
Definition args_ (ts : list tt) : option (option nat * option (option nat) * bool * option padding * list tt) :=
  match parse_margs (list tt) (fun ts => Some ts) ts with Ok a => Some (ma_lines a, ma_trunc a, ma_show a, ma_pad a, ma_expr a) | _ => None end.
Definition n_ (n : nat) : list tt := [qp "="; TLit (LUsize n) call_site].
Example C36_ex_options :
  args_ (opt_ "excerpt_line" (n_ 3) ++ [qi "f"]) = Some (Some 3, None, false, None, [qi "f"]) /\
  args_ (opt_ "truncate_str" [] ++ [qi "f"]) = Some (None, Some None, false, None, [qi "f"]) /\
  args_ (opt_ "truncate_str" (n_ 8) ++ opt_ "truncate_str" [] ++ [qi "f"]) = Some (None, Some None, false, None, [qi "f"]) /\
  args_ (opt_ "truncate_str" [] ++ opt_ "truncate_str" (n_ 8) ++ [qi "f"]) = Some (None, Some (Some 8), false, None, [qi "f"]) /\
  args_ (opt_ "show_line_num" [] ++ opt_ "show_line_num" [] ++ [qi "f"]) = Some (None, None, true, None, [qi "f"]) /\
  args_ (opt_ "padding" [qp "="; qs "top"] ++ opt_ "excerpt_line" (n_ 3) ++ opt_ "excerpt_line" (n_ 4) ++ [qi "f"]) = Some (Some 4, None, false, Some PadTop, [qi "f"]) /\
  args_ (opt_ "padding" [] ++ [qp ";"; qi "f"; qp ";"]) = Some (None, None, false, Some PadBoth, [qi "f"; qp ";"]) /\
  args_ [qp "@"; qi "padding"; qp "="; qs "bottom"; qp ";"; qi "f"] = Some (None, None, false, Some PadBottom, [qi "f"]) /\
  args_ [qp ";"; qi "f"] = Some (None, None, false, None, [qi "f"]) /\ args_ [qi "f"] = Some (None, None, false, None, [qi "f"]) /\
  map args_ [opt_ "max_len" (n_ 3); opt_ "excerpt_line" []; opt_ "padding" [qp "="; qs "left"]; opt_ "truncate_str" [qp "="; qs "8"]] = [None; None; None; None].
Proof. repeat split; vm_compute; reflexivity. Qed.
Definition settings_ (ts : list tt) : option (excerpt_setting * pretty_settings) :=
  match parse_margs pexpr (fun _ => Some (column_ 1)) ts with Ok a => Some (excerpt_setting_of a, pretty_settings_of a) | _ => None end.
Example C36_ex_settings :
  map settings_ [[]; opt_ "excerpt_line" (n_ 3); opt_ "truncate_str" (n_ 8); opt_ "show_line_num" []; opt_ "padding" [qp "="; qs "bottom"]; opt_ "padding" []] =
  [Some (mk_es 5 (Truncate None) (mk_ps true false true), mk_ps false false false);
   Some (mk_es 3 (Truncate None) (mk_ps true false true), mk_ps false false false);
   Some (mk_es 5 (Truncate (Some 8)) (mk_ps true false true), mk_ps false false false);
   Some (mk_es 5 (Truncate None) (mk_ps true false true), mk_ps true false false);
   Some (mk_es 5 (Truncate None) (mk_ps true false true), mk_ps false false true);
   Some (mk_es 5 (Truncate None) (mk_ps true true true), mk_ps false true true)].
Proof. vm_compute. reflexivity. Qed.

(** ** Presets *)
(** the methods of all presets render *)
Definition all_features : features := mk_features true true true true true "hooq".
Definition preset_list : list (list string) :=
  [["default"]; ["hook"]; ["empty"]; ["anyhow"]; ["eyre"]; ["color_eyre"]; ["log"]; ["log"; "error"]; ["log"; "warn"]; ["log"; "info"]; ["log"; "debug"]; ["log"; "trace"];
   ["tracing"]; ["tracing"; "error"]; ["tracing"; "warn"]; ["tracing"; "info"]; ["tracing"; "debug"]; ["tracing"; "trace"]].
Example C42_ex_presets :
  map (fun p => match get_flavor (preset_flavors all_features) p with
                | Ok g => match render_toks v_str (ctx_new (f_core g)) Question 1 [qi "src"] [qi "e"] there with Ok (t :: _) => Some t | _ => None end
                | _ => None end) preset_list =
  map (fun p => if match p with ["empty"] => true | _ => false end then Some (TIdent "e" there) else Some (qi "e")) preset_list.
Proof. vm_compute. reflexivity. Qed.
