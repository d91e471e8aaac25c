(** A catalogue of computed cases for C01, C05, C07 and C10: every construct with a [?] in each of its parts.

    For every construct: an attribute on it reaches all its parts (C07), they are hooked and numbered from left to right
    (C01, C10), and a skip on it holds for the parts that are not in a scope of their own (C05).  The expected answers are
    written by hand, one truth value per part: is the part in a scope of its own? *)
From Coq Require Import String Ascii Bool Arith Lia List.
From Verif Require Import Base Tokens Method Paths Context Flavor Attrs Syntax Render Walker RootAttr RenderSpec AttrSpec SiteSpec ProgSpec SettingSpec WalkSpec Properties_Attrs WalkExamples.
Import ListNotations.
Open Scope string_scope.
Open Scope list_scope.

Definition T : expr := x_try (x_call "t" []).
Definition B : list stmt := [semi T].
Definition cs := call_site.

(** each construct with its parts; [true] for the parts in a scope of their own *)
Definition exprs : list ((list attr -> expr) * list bool) :=
  [(fun a => EArray a cs [T; T] [], [false; false]);
   (fun a => EAssign a (x_name "x") [qp "="] T, [false]);
   (fun a => EAsync a [qi "async"] cs B, [true]);
   (fun a => EAwait a T [qp "."; qi "await"], [false]);
   (fun a => EBinary a T [qp "+"] T, [false; false]);
   (fun a => EBlock a [] cs B, [true]);
   (fun a => EBreak a [qi "break"] (Some T), [false]);
   (fun a => ECall a T cs [T; T] [], [false; false; false]);
   (fun a => ECast a T [qi "as"; qi "u8"], [false]);
   (fun a => EClosure a [qp "|"; qp "|"] RetNone T, [false]);
   (fun a => EClosure a [qp "|"; qp "|"] RetNone (x_block [] B), [true]);
   (fun a => EConst a [qi "const"] cs B, [true]);
   (fun a => EField a T [qp "."; qi "f"], [false]);
   (fun a => EForLoop a [qi "for"] T cs B, [false; true]);
   (fun a => EGroup a cs T, [false]);
   (fun a => EIf a [qi "if"] T cs B [qi "else"] (Some (EIf [] [qi "if"] T cs B [] None)), [false; true; true; true]);
   (fun a => EIndex a T cs T, [false; false]);
   (fun a => ELet a [qi "let"] T, [false]);
   (fun a => ELoop a [qi "loop"] cs B, [true]);
   (fun a => EMacro a (x_mac "m" [VExpr T [qp ","]; VStmt (semi T) []]), [false; false]);
   (fun a => EMatch a [qi "match"] T cs [Arm [] [qp "_"] [qi "if"] (Some T) [qp "="; qp ">"] T []], [false; true; true]);
   (fun a => EMethodCall a T [qp "."; qi "m"] cs [T; T] [], [false; false; false]);
   (fun a => EParen a cs T, [false]);
   (fun a => ERange a (Some T) [qp "."; qp "."] (Some T), [false; false]);
   (fun a => ERawAddr a [qp "&"; qi "raw"] T, [false]);
   (fun a => EReference a [qp "&"] T, [false]);
   (fun a => ERepeat a cs T [qp ";"] T, [false; false]);
   (fun a => EReturn a cs (Some T), [false]);
   (fun a => EStruct a (xa_path ["S"]) cs [FieldV [] [qi "f"] [qp ":"] T; FieldV [] [qi "g"] [qp ":"] T] [] [qp "."; qp "."] (Some T), [false; false; false]);
   (fun a => ETry a (x_call "t" [T]) cs, [false; false]);
   (fun a => ETryBlock a [qi "try"] cs B, [true]);
   (fun a => ETuple a cs [T; T] [], [false; false]);
   (fun a => EUnary a [qp "!"] T, [false]);
   (fun a => EUnsafe a [qi "unsafe"] cs B, [true]);
   (fun a => EWhile a [qi "while"] T cs B, [false; true]);
   (fun a => EYield a [qi "yield"] (Some T), [false])].
Definition stmts : list ((list attr -> stmt) * list bool) :=
  [(fun a => SLocalInit a [qi "let"] T [qi "else"] (Some (x_block [] B)) [qp ";"], [false; true]);
   (fun a => Syntax.SMacro a (x_mac "m" [VExpr T []]) [qp ";"], [false]);
   (fun a => SItem (IConst a [qi "const"] T [qp ";"]), [false])].
Definition f_item (a : list attr) : item := x_fn a "g" RetNone B.
Definition items : list ((list attr -> item) * list bool) :=
  [(f_item, [true]);
   (fun a => IImpl a [qi "impl"] cs [IIFn [] [] (x_sig "g" RetNone) cs B; IIConst [] [qi "const"] T [qp ";"]; IIMacro [] (x_mac "m" [VExpr T []]) []], [true; false; false]);
   (fun a => IImpl [] [qi "impl"] cs [IIFn a [] (x_sig "g" RetNone) cs B; IIConst a [qi "const"] T [qp ";"]; IIMacro a (x_mac "m" [VExpr T []]) []], [true; false; false]);
   (fun a => IMod a [qi "mod"] cs [f_item []; IConst [] [qi "const"] T [qp ";"]], [true; false]);
   (fun a => IConst a [qi "const"] T [qp ";"], [false]);
   (fun a => IStatic a [qi "static"] T [qp ";"], [false]);
   (fun a => ITrait a [qi "trait"] cs [TIConst [] [qi "const"] T [qp ";"]; TIFn [] (x_sig "g" RetNone) cs B; TIMacro [] (x_mac "m" [VExpr T []]) []], [false; true; false]);
   (fun a => ITrait [] [qi "trait"] cs [TIConst a [qi "const"] T [qp ";"]; TIFn a (x_sig "g" RetNone) cs B; TIMacro a (x_mac "m" [VExpr T []]) []], [false; true; false]);
   (fun a => IMacro a None (x_mac "m" [VItem (f_item []) []; VFile [] [IConst [] [qi "const"] T [qp ";"]] []]) [], [true; false])].
Definition all_items : list ((list attr -> item) * list bool) :=
  map (fun x => (fun a => x_fn [] "f" RetNone [semi (fst x a)], snd x)) exprs ++
  map (fun x => (fun a => x_fn [] "f" RetNone [fst x a], snd x)) stmts ++ items.

(** the [?] of the output in order: number and whether the hook is [.tag()] *)
Definition questions (it : item) : list (option (nat * bool)) :=
  flat_map (fun s => match s_kind s with
                     | KTry => [option_map (fun p => (h_count (fst p), mentions "tag" (m_template (fval (cx_method (h_ctx (fst p))))))) (s_hook s)]
                     | _ => []
                     end) (item_sites [] (out_of x_env x_core it)).
Definition tag_ : attr := method_ [qp "."; qi "tag"; qg Parenth []].
(** all parts hooked in order with the method set on the construct *)
Fixpoint in_order (n : nat) (l : list bool) : list (option (nat * bool)) :=
  match l with [] => [] | _ :: r => Some (n, true) :: in_order (S n) r end.
(** only the parts in a scope of their own are hooked *)
Fixpoint own_scopes (n : nat) (l : list bool) : list (option (nat * bool)) :=
  match l with [] => [] | true :: r => Some (n, false) :: own_scopes (S n) r | false :: r => None :: own_scopes n r end.

Example C07_ex_catalogue : map (fun x => questions (fst x [tag_])) all_items = map (fun x => in_order 1 (snd x)) all_items.
Proof. vm_compute. reflexivity. Qed.
Example C05_ex_catalogue : map (fun x => questions (fst x [skip_])) all_items = map (fun x => own_scopes 1 (snd x)) all_items.
Proof. vm_compute. reflexivity. Qed.
Example C06_ex_catalogue : map (fun x => questions (fst x [skip_all_])) all_items = map (fun x => map (fun _ => None) (snd x)) all_items.
Proof. vm_compute. reflexivity. Qed.
(** every program of the catalogue is a source program that expands, under each of the attributes *)
Example C01_ex_catalogue : Forall (fun x => Forall (fun a => source (fst x a) /\ exists out n, walk_item x_env (ctx_new x_core) (fst x a) counter0 = Ok (out, n)) [[]; [tag_]; [skip_]; [skip_all_]]) all_items.
Proof.
  unfold all_items. cbn [map app exprs stmts items fst].
  repeat (apply Forall_cons; [repeat (apply Forall_cons; [split; [vm_compute; reflexivity|eexists; eexists; vm_compute; reflexivity]|]); apply Forall_nil|]). apply Forall_nil.
Qed.

(** * The same for [return] and tail expressions (C02, C03, C05) *)
(** hooks on [return]s and tails in order: kind and number *)
Definition others (it : item) : list (option (kind * nat)) :=
  flat_map (fun s => match s_kind s with KTry => [] | _ => [option_map (fun p => (h_kind (fst p), h_count (fst p))) (s_hook s)] end)
           (item_sites [] (out_of x_env x_core it)).
Definition err_ (a : list attr) : expr := x_call_a a "Err" [].
Definition ok_ : expr := x_call "Ok" [].
Definition other_ (a : list attr) : expr := x_call_a a "g" [].
Definition ret_a (a : list attr) (e : expr) : expr := EReturn a cs (Some e).
(** [return] of a listed call, of an ignored one, and of another one, with and without a result type; then with a skip *)
Example C02_ex_catalogue :
  map (fun r => others (x_fn [] "f" r [semi (ret_a [] (err_ [])); semi (ret_a [] ok_); semi (ret_a [] (other_ []))])) [RetNone; x_result] =
    [[Some (Return, 1); None; None]; [Some (Return, 1); None; Some (Return, 2)]] /\
  map (fun a => others (x_fn [] "f" x_result [semi (ret_a [a] (err_ [])); semi (ret_a [] (err_ []))])) [skip_; skip_all_; tag_] =
    [[None; Some (Return, 1)]; [None; Some (Return, 1)]; [Some (Return, 1); Some (Return, 2)]].
Proof. vm_compute. split; reflexivity. Qed.
(** a block in every construct that has one: the tail is that of a function body only in a function or closure *)
Definition blocks : list ((list stmt -> expr) * bool) :=
  [(fun b => EAsync [] [qi "async"] cs b, false); (fun b => EBlock [] [] cs b, false); (fun b => EConst [] [qi "const"] cs b, false);
   (fun b => EForLoop [] [qi "for"] (x_name "x") cs b, false); (fun b => EIf [] [qi "if"] (x_name "x") cs b [] None, false);
   (fun b => EIf [] [qi "if"] (x_name "x") cs [] [qi "else"] (Some (x_block [] b)), false); (fun b => ELoop [] [qi "loop"] cs b, false);
   (fun b => ETryBlock [] [qi "try"] cs b, false); (fun b => EUnsafe [] [qi "unsafe"] cs b, false); (fun b => EWhile [] [qi "while"] (x_name "x") cs b, false);
   (fun b => EClosure [] [qp "|"; qp "|"] x_result (x_block [] b), true);
   (fun b => EMatch [] [qi "match"] (x_name "x") cs [Arm [] [qp "_"] [] None [qp "="; qp ">"] (x_block [] b) []], false)].
Definition in_fn (e : expr) : item := x_fn [] "f" x_result [semi e].
(** only the last statement counts, and only without semicolon; [other()] only at the end of a function body *)
Example C03_ex_catalogue :
  map (fun x => map (fun b => others (in_fn (fst x b))) [[semi (err_ []); tail (err_ [])]; [semi (err_ [])]; [tail ok_]; [tail (other_ [])]]) blocks =
  map (fun x => [[Some (TailExpr, 1)]; []; [None]; [if snd x : bool then Some (TailExpr, 1) else None]]) blocks.
Proof. vm_compute. reflexivity. Qed.
Example C03_ex_bodies :
  map (fun e => others (in_fn (EClosure [] [qp "|"; qp "|"] x_result e))) [err_ []; ok_; other_ []] = [[Some (TailExpr, 1)]; [None]; [Some (TailExpr, 1)]] /\
  map (fun e => others (in_fn (EMatch [] [qi "match"] (x_name "x") cs [Arm [] [qp "_"] [] None [qp "="; qp ">"] e []]))) [err_ []; ok_; other_ []] = [[Some (TailExpr, 1)]; [None]; [None]] /\
  map (fun e => others (x_fn [] "f" x_result [tail e])) [err_ []; ok_; other_ []] = [[Some (TailExpr, 1)]; [None]; [Some (TailExpr, 1)]] /\
  map (fun e => others (x_fn [] "f" RetNone [tail e])) [err_ []; ok_; other_ []] = [[Some (TailExpr, 1)]; [None]; [None]] /\
  others (in_fn (EMacro [] (x_mac "m" [VStmt (tail (err_ [])) []]))) = [] /\
  (** a callee in parentheses is not a call of a listed name *)
  others (x_fn [] "f" RetNone [tail (ECall [] (EParen [] cs (x_name "Err")) cs [] [])]) = [None].
Proof. vm_compute. repeat split. Qed.
Example C05_ex_tails :
  map (fun a => map (fun x => others (in_fn (fst x [tail (err_ [a])]))) blocks) [skip_; skip_all_; tag_] =
  [map (fun _ => [None]) blocks; map (fun _ => [None]) blocks; map (fun _ => [Some (TailExpr, 1)]) blocks].
Proof. vm_compute. reflexivity. Qed.

(** * Compared token by token: a hook that no position shows would be seen here (C03, C04, C23) *)
Definition unchanged (it : item) : Prop := nospan (itoks (out_of x_env x_core it)) = nospan (itoks it).
Definition in_macro (l : list evaluable) : item := x_fn [] "f" x_result [semi (EMacro [] (x_mac "m" l))].
(** statements among macro arguments are no tails, arguments keep their order, and macro_rules is left alone *)
Example C03_ex_macro : unchanged (in_macro [VStmt (tail (err_ [])) []]).
Proof. vm_compute. reflexivity. Qed.
Example C23_ex_order : unchanged (in_macro [VExpr (other_ []) [qp ","]; VExpr (x_name "x") [qp ","]; VExpr ok_ []]).
Proof. vm_compute. reflexivity. Qed.
Example C04_ex_rules : let m := x_mac "macro_rules" [VExpr T []] in
  unchanged (IMacro [] (Some "r") m []) /\ ~ unchanged (IMacro [] None m []).
Proof. split; [vm_compute; reflexivity|]. vm_compute. intros H. discriminate H. Qed.

(** * Settings one at a time (C02, C06, C09, C13) *)
Definition with_targets (w : switch) : fcore := mk_fcore [] (fl_method x_core) w ["Err"] ["Ok"] ["Result"] true [].
Definition kinds (f : fcore) (it : item) : list (option kind) := map (fun s => option_map (fun p => h_kind (fst p)) (s_hook s)) (item_sites [] (out_of x_env f it)).
(** each switch decides for its own kind *)
Example C02_ex_switches : let it := x_fn [] "f" x_result [semi T; semi (ret_a [] (err_ [])); tail (err_ [])] in
  map (fun w => kinds (with_targets w) it) [mk_switch true false false; mk_switch false true false; mk_switch false false true] =
  [[Some Question; None; None]; [None; Some Return; None]; [None; None; Some TailExpr]].
Proof. vm_compute. reflexivity. Qed.
(** only the last segment of the return type counts; a closure has its own; outside functions there is none *)
Example C02_ex_types :
  map (fun r => others (x_fn [] "f" r [semi (ret_a [] (other_ []))])) [RetPath (xa_path ["Result"]); RetPath (xa_path ["a"; "Result"]); RetPath (xa_path ["Result"; "a"]); RetPath (xa_path ["Results"]); RetNone] =
    [[Some (Return, 1)]; [Some (Return, 1)]; [None]; [None]; [None]] /\
  others (x_fn [] "f" x_result [semi (x_closure RetNone (x_block [] [semi (ret_a [] (other_ []))]))]) = [None] /\
  others (x_fn [] "f" RetNone [semi (x_closure x_result (x_block [] [semi (ret_a [] (other_ []))]))]) = [Some (Return, 1)] /\
  others (IConst [] [qi "const"] (ret_a [] (other_ [])) [qp ";"]) = [None].
Proof. vm_compute. repeat split. Qed.
(** with both, in either order, skip_all holds *)
Example C06_ex_both :
  map (fun l => map (fun x => questions (fst x l)) all_items) [[skip_; skip_all_]; [skip_all_; skip_]] =
  [map (fun x => map (fun _ => None) (snd x)) all_items; map (fun x => map (fun _ => None) (snd x)) all_items].
Proof. vm_compute. reflexivity. Qed.
(** [$source] of every kind of target is without the hooq attributes on the target *)
Definition rendered (m : method) (it : item) : list (list tt) :=
  flat_map (fun s => match s_hook s with Some (_, r) => [nospan (etoks r)] | None => [] end) (item_sites [] (out_of x_env (mk_fcore [] m (mk_switch true true true) ["Err"] [] ["Result"] true []) it)).
Definition list_attr : attr := xa_list "tail_expr_idents" ["Err"].
Example C13_ex_attrs : let m := Replace [qg Brace [qp "$"; qi "source"]] false in
  rendered m (x_fn [] "f" RetNone [tail (err_ [list_attr])]) = [nospan [qg Brace (etoks (err_ []))]] /\
  rendered m (x_fn [] "f" RetNone [semi (ret_a [list_attr] (err_ []))]) = [nospan [qg Brace (etoks (ret_a [] (err_ [])))]] /\
  rendered m (x_fn [] "f" RetNone [semi (x_try_a [list_attr] (other_ []))]) = [nospan [qg Brace (etoks (x_try (other_ [])))]].
Proof. vm_compute. repeat split. Qed.
(** [$so_far] through three methods, each naming the one it overrides *)
Definition so_far_ (s : string) : attr := method_ [qi s; qg Parenth [qp "$"; qi "so_far"]].
Example C09_ex_nested : rendered (Replace [qi "base"] false)
  (x_fn [so_far_ "a"] "f" RetNone [semi (x_block [so_far_ "b"] [semi (x_try_a [so_far_ "c"] (other_ []))])]) =
  [nospan [qi "c"; qg Parenth [qi "b"; qg Parenth [qi "a"; qg Parenth [qi "base"]]]]].
Proof. vm_compute. reflexivity. Qed.

(** * Attribute values, read off what is hooked (C17, C19, C20, C21, C22) *)
Definition probe (a : list attr) : item := x_fn a "f" x_result [semi T; semi (ret_a [] (other_ [])); tail (other_ [])].
Example C19_ex_words :
  map (fun l => kinds x_core (probe [xa_list "hook_targets" l])) [["?"]; ["return"]; ["tail_expr"]; ["?"; "tail_expr"]] =
    [[Some Question; None; None]; [None; Some Return; None]; [None; None; Some TailExpr]; [Some Question; None; Some TailExpr]] /\
  (switch_try_from ["all"], switch_try_from ["return"; "all"], switch_try_from []) = (inl (mk_switch true true true), inl (mk_switch true true true), inl (mk_switch false false false)).
Proof. vm_compute. split; reflexivity. Qed.
(** the names of one list do not get into the other *)
Example C20_ex_lists :
  map (fun a => others (x_fn [a] "f" x_result [semi (x_block [] [tail (other_ [])]); semi (ret_a [] (other_ []))]))
      [tag_; xa_list "tail_expr_idents" ["g"]; xa_list "ignore_tail_expr_idents" ["g"]] =
  [[None; Some (Return, 1)]; [Some (TailExpr, 1); Some (Return, 1)]; [None; None]] /\ (* each kind has its own numbers *)
  (** an ignore list given above stays when only tail_expr_idents is given below *)
  others (x_fn [xa_list "ignore_tail_expr_idents" ["g"]] "f" x_result [semi (x_block [xa_list "tail_expr_idents" ["h"]] [semi (ret_a [] (other_ []))])]) = [None].
Proof. vm_compute. split; reflexivity. Qed.
Example C21_ex_separators :
  let a s := xa (MList (xa_path ["hooq"; "result_types"]) Parenth [TLit (LStr "A") call_site; TPunct s call_site; TLit (LStr "B") call_site] call_site) in
  (exists i, extract xa_env [a ","%char] = Ok (i, []) /\ in_results i = Some ["A"; "B"]) /\ (forall i k, extract xa_env [a ";"%char] <> Ok (i, k)).
Proof. split; [eexists; split; vm_compute; reflexivity|]. intros i k H. vm_compute in H. discriminate H. Qed.
Example C17_ex_bindings : exists i, extract xa_env [xa_set "name" (VStr "v" call_site); xa_word ["inline"]] = Ok (i, [xa_word ["inline"]]).
Proof. eexists. vm_compute. reflexivity. Qed.
(** macro calls are entered by default and left alone with [hook_in_macros = false] *)
Example C22_ex_switch : let it a := x_fn a "f" RetNone [semi (EMacro [] (x_mac "m" [VExpr T []]))] in
  questions (it []) = [Some (1, false)] /\ questions (it [xa (MList (xa_path ["hooq"; "hook_in_macros"]) Parenth [qi "false"] call_site)]) = [None].
Proof. vm_compute. split; reflexivity. Qed.
