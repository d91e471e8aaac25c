(** C09, C12, C14, C15, C16, C37, C38, C45: rendering of a method.  *)
From Coq Require Import String Ascii Bool Arith NArith Lia Permutation Sorted List.
From Verif Require Import Base Tokens Method Paths Context Render Excerpt ExcerptSpec Helpers MapFacts RenderSpec RenderProofs RenderVarProofs.
Import ListNotations.
Open Scope string_scope.
Open Scope list_scope.

(** an example context: a function [f] returning [Result], two bindings, and a method overriding another one *)
Definition at1 : span := mk_span "src/a/b.rs" 12 5.
Definition ex_sig : sig := mk_sig "f" (RetPath (mk_path false [mk_seg "Result" [] at1])) [qi "fn"; qi "f"; qg Parenth []].
(** [.inspect_err(|_| log($x, $expr))] overridden by [.$so_far.tag($line)] *)
Definition ex_base : method := Insert at1 [qi "inspect"; qg Parenth [qi "log"; qg Parenth [qp "$"; qi "x"; qp ","; qp "$"; qi "expr"]]] false.
Definition ex_over : method := Insert at1 [qp "$"; qi "so_far"; qp "."; qi "tag"; qg Parenth [qp "$"; qi "line"]] false.
Definition ex_ctx : ctx :=
  {| cx_method := Field ex_over (Some (Field ex_base None));
     cx_targets := field_new (mk_switch true true true); cx_tails := field_new ["Err"]; cx_ignores := field_new ["Ok"];
     cx_results := field_new ["Result"]; cx_macros := field_new true;
     cx_bindings := field_new [("x", [qi "one"]); ("level", [qs "warn"])];
     cx_skip := field_new None; cx_fn := field_new (Some (FnInfo ex_sig)) |}.
Definition ex_str (ts : list tt) : string := dec (length ts).
Definition ex_out : list tt :=
  [qi "inspect"; qg Parenth [qi "log"; qg Parenth [qi "one"; qp ","; qi "e"; qp "?"]]; qp "."; qi "tag"; qg Parenth [TLit (LUsize 12) call_site]].

(** ** C14 *)
(** rendering substitutes: [$name] gets its value at every depth, every other token stays in place, and values are not
    scanned again ([substs] puts them in the output as they are) *)
Theorem C14_substitution_partial : forall ts_str c k count source ets q m anc out,
  dollars_ok (m_template m) ->
  (expand_method ts_str c k count source ets q (Field m anc) = Ok out <->
   substs (fun n v => meta_var_toks ts_str c k count source ets q
                        (match anc with Some a => expand_method ts_str c k count source ets q a | None => Err ErrNoSoFar end) n = Ok v)
          (m_template m) out).
Proof. intros. apply expand_exact. assumption. Qed.
Print Assumptions C14_substitution_partial.
(** Full statement: without [dollars_ok].  Missing: templates with a [$] at the end of a stream.  For them the statement is
    false, the [$] is a token that does not stay: *)
Theorem C14_trailing_refuted : exists ts_str c k count source ets q m out,
  expand_method ts_str c k count source ets q (field_new m) = Ok out /\ forall V o, ~ substs V (m_template m) o.
Proof.
  exists ex_str, ex_ctx, Question, 1, [], [], at1, (Insert at1 [qi "m"; qg Parenth [qi "x"; qp "$"]] false), [qi "m"; qg Parenth [qi "x"]].
  split; [reflexivity|]. intros V o H. inversion H as [| | |? ? ? _ _ H1]; subst. inversion H1 as [| |? ? ? ? ? ? H2 _|? ? ? _ Hg _]; subst.
  - inversion H2 as [| | |? ? ? _ _ H3]; subst. inversion H3 as [| | |? ? ? Hd _ _]; subst. apply Hd. exists call_site. reflexivity.
  - apply Hg. do 3 eexists. reflexivity.
Qed.
Print Assumptions C14_trailing_refuted.
(** for every template: it is filled in as asked for, except that a [$] at the end of a stream is dropped *)
Theorem C14_filled : forall ts_str c k count source ets q m anc out,
  expand_method ts_str c k count source ets q (Field m anc) = Ok out <->
  filled (fun n v => meta_var_toks ts_str c k count source ets q
                       (match anc with Some a => expand_method ts_str c k count source ets q a | None => Err ErrNoSoFar end) n = Ok v)
         (m_template m) out.
Proof. intros. apply expand_filled. Qed.
Print Assumptions C14_filled.

(** the values of the variables *)
Theorem C14_values : forall ts_str c k count source ets q so_far n v,
  is_so_far n = false -> meta_var_toks ts_str c k count source ets q so_far n = Ok v -> value ts_str c k count source ets q n v.
Proof. exact meta_var_value. Qed.
Print Assumptions C14_values.

(** what is handed to the parser: the target followed by the method, or the method alone *)
Theorem C14_render : forall ts_str c k count source ets q ts,
  expand_method ts_str c k count source ets q (cx_method c) = Ok ts ->
  exists out, nospan out = nospan ts /\ Forall (fun t => tt_span t = q) out /\
  render_toks ts_str c k count source ets q =
    Ok (match fval (cx_method c) with Insert dot _ _ => ets ++ [TPunct "." dot] ++ out | Replace _ _ => out end).
Proof. exact render_shape. Qed.
Print Assumptions C14_render.

Example C14_ex :
  dollars_ok (m_template ex_base) /\ dollars_ok (m_template ex_over) /\
  expand_method ex_str ex_ctx Question 3 [qi "src"] [qi "e"; qp "?"] at1 (cx_method ex_ctx) = Ok ex_out.
Proof.
  split; [|split; [|reflexivity]].
  - repeat first [apply dk_nil | apply dk_var | apply dk_group | (apply dk_tok; [intros (? & ?); discriminate|intros (? & ? & ? & ?); discriminate|])].
  - repeat first [apply dk_nil | apply dk_var | apply dk_group | (apply dk_tok; [intros (? & ?); discriminate|intros (? & ? & ? & ?); discriminate|])].
Qed.

(** ** C15 *)
Theorem C15_dollars_partial : forall ts_str c k count source ets q f out,
  expand_method ts_str c k count source ets q f = Ok out -> dollars_weak (m_template (fval f)).
Proof. exact em_weak. Qed.
Print Assumptions C15_dollars_partial.
(** missing: a [$] that ends a stream; it is accepted and dropped *)
Theorem C15_trailing_refuted : exists ts_str c k count source ets q f out,
  expand_method ts_str c k count source ets q f = Ok out /\ ~ dollars_ok (m_template (fval f)).
Proof.
  exists ex_str, ex_ctx, Question, 1, [], [], at1, (field_new (Insert at1 [qi "m"; qg Parenth [qp "$"]] false)), [qi "m"; qg Parenth []].
  split; [reflexivity|]. intros H. inversion H; subst.
  match goal with H : dollars_ok [qg _ _] |- _ => inversion H; subst end.
  - match goal with H : dollars_ok [qp _] |- _ => inversion H; subst end.
    match goal with H : ~ is_dollar _ |- _ => apply H; exists call_site; reflexivity end.
  - match goal with H : ~ is_group (TGroup _ _ _) |- _ => apply H; do 3 eexists; reflexivity | H : ~ is_group (qg _ _) |- _ => apply H; do 3 eexists; reflexivity end.
Qed.
Print Assumptions C15_trailing_refuted.

Example C15_ex : forall so_far, expand_method ex_str ex_ctx Question 1 [] [] at1 (Field (Replace [qp "$"; qs "x"] false) so_far) = Err ErrDollar.
Proof. reflexivity. Qed.

(** ** C16 *)
Theorem C16_known : forall ts_str c k count source ets q so_far n,
  is_so_far n = false ->
  ((exists v, meta_var_toks ts_str c k count source ets q so_far n = Ok v) <->
   In n builtin \/ exists v, mget n (fval (cx_bindings c)) = Some v).
Proof. exact meta_var_known. Qed.
Print Assumptions C16_known.

Theorem C16_error : forall ts_str c k count source ets q so_far n e,
  is_so_far n = false -> meta_var_toks ts_str c k count source ets q so_far n = Err e ->
  ~ In n builtin /\ mget n (fval (cx_bindings c)) = None /\
  exists l, sorted_entries (fval (cx_bindings c)) l /\
    e = ErrUnknownVar n (map fst l)
      ["line"; "column"; "path"; "file"; "expr"; "source"; "count"; "fn_name"; "fn_sig"; "so_far"; "bindings"; "hooq_meta"].
Proof. exact meta_var_unknown. Qed.
Print Assumptions C16_error.

(** a template using an unknown name is rejected, whatever else it contains *)
Theorem C16_template : forall ts_str c k count source ets q f out,
  expand_method ts_str c k count source ets q f = Ok out -> forall n, uses n (m_template (fval f)) ->
  (is_so_far n = true /\ fanc f <> None) \/
  (is_so_far n = false /\ (In n builtin \/ exists v, mget n (fval (cx_bindings c)) = Some v)).
Proof. exact em_needs. Qed.
Print Assumptions C16_template.

(** and one that uses only known names, with [$so_far] only where something is overridden, is accepted *)
Theorem C16_success : forall ts_str c k count source ets q f,
  Forall (fun m => dollars_weak (m_template m)) (chain f) ->
  (forall m n, In m (chain f) -> uses n (m_template m) -> is_so_far n = false ->
     In n builtin \/ exists v, mget n (fval (cx_bindings c)) = Some v) ->
  (forall pre m n, chain f = pre ++ [m] -> uses n (m_template m) -> is_so_far n = false) ->
  exists out, expand_method ts_str c k count source ets q f = Ok out.
Proof. exact em_success. Qed.
Print Assumptions C16_success.

(** a binding never shadows a built-in *)
Theorem C16_no_shadowing : forall ts_str c b k count source ets q so_far n,
  In n builtin -> ~ In n ["bindings"; "vars"; "hooq_meta"; "hooqmeta"] ->
  meta_var_toks ts_str (with_bindings c b) k count source ets q so_far n = meta_var_toks ts_str c k count source ets q so_far n.
Proof. exact builtin_not_shadowed. Qed.
Print Assumptions C16_no_shadowing.

Example C16_ex :
  meta_var_toks ex_str ex_ctx Return 2 [] [] at1 (Err ErrNoSoFar) "lvl" =
    Err (ErrUnknownVar "lvl" ["level"; "x"] ["line"; "column"; "path"; "file"; "expr"; "source"; "count"; "fn_name"; "fn_sig"; "so_far"; "bindings"; "hooq_meta"]) /\
  meta_var_toks ex_str ex_ctx Return 22 [] [] at1 (Err ErrNoSoFar) "nth" = Ok [qs "22nd return"] /\
  is_so_far "lvl" = false /\ uses "x" (m_template ex_base) /\ In "line" builtin.
Proof. repeat split; try (simpl; tauto). apply us_next, us_in, us_next, us_in, us_here. Qed.

(** ** C09 *)
Theorem C09_so_far : forall ts_str c k count source ets q f out,
  expand_method ts_str c k count source ets q f = Ok out <->
  stack_exp (plain ts_str c k count source ets q) (map m_template (chain f)) out.
Proof. exact so_far_stack. Qed.
Print Assumptions C09_so_far.

Theorem C09_nothing_overridden : forall ts_str c k count source ets q m n,
  uses n (m_template m) -> is_so_far n = true -> forall out, expand_method ts_str c k count source ets q (field_new m) <> Ok out.
Proof. exact so_far_missing. Qed.
Print Assumptions C09_nothing_overridden.

Example C09_ex :
  chain (cx_method ex_ctx) = [ex_over; ex_base] /\ uses "so_far" (m_template ex_over) /\
  expand_method ex_str ex_ctx Question 1 [] [qi "e"; qp "?"] at1 (cx_method ex_ctx) = Ok ex_out /\
  expand_method ex_str ex_ctx Question 1 [] [] at1 (field_new ex_over) = Err ErrNoSoFar.
Proof. repeat split. apply us_here. Qed.

(** ** C12 *)
Theorem C12_ordinal : forall k n,
  exists ds suf, count_str k n = (ds ++ suf ++ " " ++ kind_word k)%string /\ decimal n ds /\ english ds suf.
Proof. exact count_str_spec. Qed.
Print Assumptions C12_ordinal.

Example C12_ex : map (count_str Question) [0; 1; 2; 3; 4; 11; 12; 13; 21; 101; 111; 112; 122] =
  ["0th ?"; "1st ?"; "2nd ?"; "3rd ?"; "4th ?"; "11th ?"; "12th ?"; "13th ?"; "21st ?"; "101st ?"; "111th ?"; "112th ?"; "122nd ?"].
Proof. reflexivity. Qed.

(** ** C45 *)
Theorem C45_file : forall q, last_component (sp_file q) (get_file_name q).
Proof. exact file_name_spec. Qed.
Print Assumptions C45_file.
Theorem C45_unique : forall p a b, last_component p a -> last_component p b -> a = b.
Proof. exact last_component_unique. Qed.
Print Assumptions C45_unique.

Example C45_ex : get_file_name at1 = "b.rs" /\ get_file_name (mk_span "main.rs" 1 1) = "main.rs" /\ get_file_name (mk_span "a/" 1 1) = "".
Proof. repeat split. Qed.

(** ** C37 *)
(** the generated map has every binding once, under its own name, with its text and value *)
Theorem C37_payload : forall ts_str c,
  exists l, sorted_entries (fval (cx_bindings c)) l /\
  read_bindings (get_bindings_token_stream ts_str c) = Some (map (fun b => (fst b, ts_str (snd b), snd b)) l).
Proof. intros. eexists. split; [apply sort_entries|apply read_bindings_q]. Qed.
Print Assumptions C37_payload.

(** reading it at run time; [ev] is what the expression of a binding evaluates to *)
Theorem C37_get_binding : forall ts_str c ev l m T k x, NoDup (keys (fval (cx_bindings c))) ->
  read_bindings (get_bindings_token_stream ts_str c) = Some l -> hm_bindings m = runtime ev l ->
  (meta_get_binding T m k = Some x <->
   exists v, mget k (fval (cx_bindings c)) = Some v /\ dyn_type (ev v) = T /\ dyn_val (ev v) = x).
Proof. exact get_binding_spec. Qed.
Print Assumptions C37_get_binding.

Example C37_ex :
  NoDup (keys (fval (cx_bindings ex_ctx))) /\
  read_bindings (get_bindings_token_stream ex_str ex_ctx) = Some [("level", "1", [qs "warn"]); ("x", "1", [qi "one"])] /\
  let ev ts := match ts with [TIdent _ _] => mk_dyn 1 1 | _ => mk_dyn 2 7 end in
  let m := mk_meta_value 1 1 "" "" "" "" (runtime ev [("level", "1", [qs "warn"]); ("x", "1", [qi "one"])]) in
  meta_get_binding 2 m "level" = Some 7 /\ meta_get_binding 1 m "level" = None /\ meta_get_binding 1 m "x" = Some 1 /\ meta_get_binding 1 m "y" = None.
Proof. split; [repeat constructor; simpl; intuition discriminate|]. repeat split. Qed.

(** ** C38 *)
Theorem C38_hash_order : forall ts_str c b b' k count source ets q, NoDup (keys b) -> Permutation b b' ->
  render_toks ts_str (with_bindings c b) k count source ets q = render_toks ts_str (with_bindings c b') k count source ets q.
Proof. exact render_perm. Qed.
Print Assumptions C38_hash_order.

Example C38_ex :
  let b := [("x", [qi "one"]); ("level", [qs "warn"])] in let b' := [("level", [qs "warn"]); ("x", [qi "one"])] in
  NoDup (keys b) /\ Permutation b b' /\
  meta_var_toks ex_str (with_bindings ex_ctx b) Question 1 [] [] at1 (Err ErrNoSoFar) "vars" =
  meta_var_toks ex_str (with_bindings ex_ctx b') Question 1 [] [] at1 (Err ErrNoSoFar) "vars".
Proof. split; [repeat constructor; simpl; intuition discriminate|]. split; [apply perm_swap|reflexivity]. Qed.
