(** Property C52: on a small part of Rust, with a parser in place of the oracle, the presets expand every function.

    SmallRust.v has the trees ([post], [full], [block]; [body false] are the bodies of functions, without closures) and the parser [rust_parse].  *)
From Coq Require Import String Ascii Bool Arith Lia List.
From Verif Require Import Base Tokens Method Paths Context Flavor Attrs Syntax Render Walker RootAttr RenderSpec AttrSpec AttrProofs SiteSpec ProgSpec WalkSpec FlavorSpec FlavorStoreProofs PresetSpec PresetTableProofs GrammarSpec PresetShapeProofs MeaningSpec RunSpec RunProofs AlikeSpec MoveSpec PlaceSpec SmallRust SmallRustProofs SmallRustLaws ClosedProofs WalkExamples Properties_Attrs Properties_Meaning.
From Verif Require FlavorNameProofs Properties_Macro.
Import ListNotations.
Open Scope string_scope.
Open Scope list_scope.

(** * The parser *)
(** it accepts what the trees are printed to and nothing else, and reads that back *)
Theorem C52_parser ts e : rust_parse ts = Some e <-> full true e /\ etoks e = ts.
Proof. apply parse_iff. Qed.
Print Assumptions C52_parser.
(** so every text has at most one tree *)
Theorem C52_unambiguous e e' : full true e -> full true e' -> etoks e = etoks e' -> e = e'.
Proof. intros H H' T. assert (A : rust_parse (etoks e) = Some e) by (apply parse_iff; auto). assert (B : rust_parse (etoks e) = Some e') by (apply parse_iff; auto). congruence. Qed.
Print Assumptions C52_unambiguous.

(** * The laws *)
(** what other properties ask of a parser holds for this one: it keeps the first position, looks neither at positions nor into literals, and rejects a method call after a cast *)
Theorem C52_laws E : ev_parse E = rust_parse -> prints_start E /\ reads_alike E /\ (forall g, reads_moved g E) /\ Properties_Macro.no_call_after_cast E.
Proof.
  intro HE. split; [|split; [|split]].
  - intros ts r H. rewrite HE in H. apply parse_iff in H. destruct H as [_ <-]. reflexivity.
  - intros ts ts' H. rewrite HE. pose proof (parse_like ts ts' (likes_of _ _ _ alike_like H)) as P.
    destruct (rust_parse ts) as [r|], (rust_parse ts') as [r'|]; auto. destruct P as (T & T' & S). split; [congruence|].
    destruct S as [(x & sp & sp' & -> & ->)|[(x & a & a' & sp & sp' & es & es' & cs & cs' & -> & ->)|[(x & sp & sp' & hs & hs' & -> & -> & Eh)|[(x & a & a' & hs & hs' & sp & sp' & es & es' & cs & cs' & -> & -> & Eh)|[-> ->]]]]]; subst ts ts'; [| | | |reflexivity].
    1-2: inversion H as [|? ? ? ? H1 H2]; inversion H1; reflexivity.
    + rewrite <- (app_nil_r (etoks (far x sp hs))), <- (app_nil_r (etoks (far x sp' hs'))) in H. rewrite (alike_far _ _ _ _ _ _ _ Eh H). reflexivity.
    + cbn [etoks] in H. rewrite outer_nil in H. rewrite (alike_far _ _ _ _ _ _ _ Eh H). reflexivity.
  - intros g ts ts' H. rewrite HE. pose proof (parse_like ts ts' (likes_of _ _ _ (moved_like g E) H)) as P.
    destruct (rust_parse ts) as [r|], (rust_parse ts') as [r'|]; auto. destruct P as (T & T' & S). split; [congruence|].
    destruct S as [(x & sp & sp' & -> & ->)|[(x & a & a' & sp & sp' & es & es' & cs & cs' & -> & ->)|[(x & sp & sp' & hs & hs' & -> & -> & Eh)|[(x & a & a' & hs & hs' & sp & sp' & es & es' & cs & cs' & -> & -> & Eh)|[-> ->]]]]]; subst ts ts'; [| | | |reflexivity].
    1-2: inversion H as [|? ? ? ? H1 H2]; inversion H1; reflexivity.
    + rewrite <- (app_nil_r (etoks (far x sp hs))), <- (app_nil_r (etoks (far x sp' hs'))) in H. exact (f_equal ShPath (moved_far _ _ _ _ _ _ _ _ _ Eh H)).
    + cbn [etoks] in H. rewrite outer_nil in H. exact (f_equal ShCall (moved_far _ _ _ _ _ _ _ _ _ Eh H)).
  - intros a e ty nm call Hc. rewrite HE. destruct (rust_parse _) as [r|] eqn:P; [|reflexivity]. exfalso. apply parse_iff in P. destruct P as [F T].
    pose proof (no_as true r F) as N. unfold plain_text in N. rewrite T in N. cbn [etoks] in N. rewrite !forallb_app in N. cbn [forallb no_as_tok qi] in N.
    rewrite (String.eqb_refl "as") in N. cbn in N. rewrite !andb_false_r in N. discriminate.
Qed.
Print Assumptions C52_laws.

(** * The presets *)
Definition preset_ctx (p : list string) (g : flavor) (c : ctx) : Prop :=
  chain (cx_method c) = [fl_method (f_core g)] /\ fval (cx_bindings c) = fl_bindings (f_core g) /\ fval (cx_targets c) = fl_targets (f_core g).
Lemma call_word p : word (preset_call p).
Proof.
  assert (A : forall x, In x ["hook"; "with_context"; "wrap_err_with"; "inspect_err"] -> word x) by (intros x [<-|[<-|[<-|[<-|[]]]]]; a_word).
  apply A. unfold preset_call. repeat match goal with |- context [match ?x with _ => _ end] => destruct x; try (simpl; tauto) end.
Qed.
Lemma walks_preset E ft p g a vis s sp b : ev_parse E = rust_parse -> at_path (preset_flavors ft) p g -> word (ft_crate ft) -> node_events (ev_attr E) a [] -> body false b ->
  exists b', expands E (f_core g) (IFn a vis s sp b) (IFn a vis s sp b') /\ gblock (preset_call p) b'.
Proof.
  intros HE Hg Hw Ha [Hb Hbt].
  assert (W : block_walks E (preset_call p) (preset_ctx p g) b).
  { apply (all_walk E (preset_call p) (preset_ctx p g)); auto.
    - apply call_word.
    - intros c k n src ets q (Hm & Hbi & Ht) Hk. destruct (preset_is ft p g Hg) as [[-> ->]|(Hne & _)].
      + exfalso. unfold is_hook_target in Hk. rewrite Ht in Hk. destruct k; discriminate.
      + apply (preset_renders (ev_str E) ft p g c k n src ets q Hg Hne Hw Hm). intros x. rewrite Hbi. reflexivity.
    - intros c (Hm & _ & _). apply one_method in Hm. rewrite Hm. cbn [fval]. destruct (preset_is ft p g Hg) as [[-> ->]|(_ & (dot & sp1 & sp2 & arg & ->) & _)]; [destruct ft as [[] ? ? ? ? ?]|]; reflexivity. }
  assert (X : handle E a (ctx_new (f_core g)) counter0 = Ok (a, false, updated_by_inert_attr (ctx_new (f_core g)) inert0, counter0)).
  { unfold handle, lift, handle_inert_attrs, extract. rewrite (loop_complete (ev_attr E) a [] Ha). cbn [bindR fst snd apply_events]. rewrite (all_foreign _ _ _ Ha eq_refl). reflexivity. }
  destruct (W FnBlockTail (for_sub_scope (update_fn_info (updated_by_inert_attr (ctx_new (f_core g)) inert0) (FnInfo s))) counter0 0) as (b' & cnt & Hb' & G).
  { repeat split. }
  { intros _. exact Hbt. }
  exists b'. split; [|exact G]. exists cnt. cbn [walk_item]. rewrite (bind_ok _ _ _ _ _ X). cbn beta iota zeta. erewrite bind_ok; [|exact Hb']. reflexivity.
Qed.

(** Every function of the small part of Rust is expanded by every preset: nothing panics, no error is reported.  The result is in the small part again, and what is printed for the body reads back as
    that result.  *)
Theorem C52 E ft p g a vis s sp b : ev_parse E = rust_parse -> at_path (preset_flavors ft) p g -> word (ft_crate ft) -> node_events (ev_attr E) a [] -> body false b ->
  exists out b', expands E (f_core g) (IFn a vis s sp b) out /\ item_actual out = IFn a vis s sp b' /\ itoks out = itoks (IFn a vis s sp b') /\
    block true b' /\ rust_parse [TGroup Brace (flat_map stoks b') sp] = Some (EBlock [] [] sp b').
Proof.
  intros HE Hg Hw Ha Hb. destruct (walks_preset E ft p g a vis s sp b HE Hg Hw Ha Hb) as (b' & Hx & P & S). exists (IFn a vis s sp b'), (map stmt_actual b').
  split; [exact Hx|]. split; [reflexivity|]. split; [|split; [exact P|]].
  - cbn [itoks]. rewrite (proj1 (good_block _ _ S)). reflexivity.
  - apply parse_iff. split; [apply f_oper, o_un, u_post, p_block, P|reflexivity].
Qed.
Print Assumptions C52.
(** and under the presets that inspect errors it runs as the function did *)
Theorem C52_run E ft p g a vis s sp b : ev_parse E = rust_parse -> at_path (preset_flavors ft) p g -> word (ft_crate ft) -> node_events (ev_attr E) a [] -> body false b ->
  preset_call p = "inspect_err" ->
  exists out b', expands E (f_core g) (IFn a vis s sp b) out /\ item_actual out = IFn a vis s sp b' /\ forall n lib w, same_run (run_fn n lib b w) (run_fn n lib b' w).
Proof.
  intros HE Hg Hw Ha Hb Hi. destruct (walks_preset E ft p g a vis s sp b HE Hg Hw Ha Hb) as (b' & Hx & P & S). exists (IFn a vis s sp b'), (map stmt_actual b').
  split; [exact Hx|]. split; [reflexivity|]. intros n lib w.
  destruct (C51_run n lib E (f_core g) a vis s sp b (IFn a vis s sp b') w Hx) as (a2 & b2 & H1 & H2).
  - exact (block_written b (proj1 Hb)).
  - intros h o r Hin. pose proof (proj1 (Forall_forall _ _) (proj2 (good_block _ _ S)) _ Hin) as (Hc & sp1 & sp2 & sp3 & f & -> & Hf).
    split; [exact Hc|]. rewrite Hi. exists sp1, sp2, sp3, f. split; [reflexivity|]. destruct f; try contradiction. exact I.
  - cbn [item_actual] in H1. injection H1 as _ <-. exact H2.
Qed.
Print Assumptions C52_run.
(** under [anyhow], [eyre] and [color_eyre] it does so up to the contexts that are put around errors, if the library does not look at them *)
Theorem C52_run_context E ft p g a vis s sp b : ev_parse E = rust_parse -> at_path (preset_flavors ft) p g -> word (ft_crate ft) -> node_events (ev_attr E) a [] -> body false b ->
  p <> ["hook"] ->
  exists out b', expands E (f_core g) (IFn a vis s sp b) out /\ item_actual out = IFn a vis s sp b' /\ forall n lib w, blind strip lib -> same_upto strip (run_fn n lib b w) (run_fn n lib b' w).
Proof.
  intros HE Hg Hw Ha Hb Hi. destruct (walks_preset E ft p g a vis s sp b HE Hg Hw Ha Hb) as (b' & Hx & P & S). exists (IFn a vis s sp b'), (map stmt_actual b').
  split; [exact Hx|]. split; [reflexivity|]. intros n lib w Hl.
  destruct (C51_run_context n lib E (f_core g) a vis s sp b (IFn a vis s sp b') w Hl Hx) as (a2 & b2 & H1 & H2).
  - exact (block_written b (proj1 Hb)).
  - intros h o r Hin. pose proof (proj1 (Forall_forall _ _) (proj2 (good_block _ _ S)) _ Hin) as (Hc & sp1 & sp2 & sp3 & f & -> & Hf).
    split; [exact Hc|]. exists (preset_call p), sp1, sp2, sp3, f. split; [exact (preset_passes p Hi)|]. split; [reflexivity|]. destruct f; try contradiction. exact I.
  - cbn [item_actual] in H1. injection H1 as _ <-. exact H2.
Qed.
Print Assumptions C52_run_context.
(** the macro as a whole: with readable arguments that name a preset *)
Theorem C52_macro PPs E ft p g args fs ts a vis s sp b : ev_parse E = rust_parse -> at_path (preset_flavors ft) p g -> word (ft_crate ft) -> node_events (ev_attr E) a [] -> body false b ->
  Forall2 arg_flavor args fs -> Forall2 (arg_traits PPs) args ts -> ae_flavor (ev_attr E) (Properties_Macro.named_flavor fs) = Ok (f_core g) ->
  exists b' uses, hooq_impls PPs E args (IFn a vis s sp b) = Ok (flat_map trait_use_toks uses ++ itoks (IFn a vis s sp b')) /\ block true b'.
Proof.
  intros HE Hg Hw Ha Hb Hf Ht Hl. destruct (C52 E ft p g a vis s sp b HE Hg Hw Ha Hb) as (out & b' & (cnt & Hx) & _ & Hp & Hb' & _). exists b'. eexists. split; [|exact Hb'].
  unfold hooq_impls, hooq_impls_parts, parse_root. rewrite (root_loop_ok PPs args fs ts Hf Ht). cbn [bindR ra_traits ra_flavor app]. unfold root_load. cbn [ra_flavor ra_traits].
  unfold Properties_Macro.named_flavor in Hl. destruct (last_some fs); rewrite Hl; cbn [bindR rc_core]; rewrite Hx; cbn [bindR fst snd]; rewrite Hp; reflexivity.
Qed.
Print Assumptions C52_macro.

(** * A concrete case *)
(** fn main() -> Result { let x = f(g()?)?; if c() { return Err(x); } h(x) } of Properties_Meaning.v, and
    fn main() -> Result { if a(1, b.m()?) { { f()? } } else { }; (g(())).n()?; Ok(()) } *)
Definition xs_env : env := mk_env xa_env rust_parse (fun _ => "text").
Definition xs_at (n : nat) : span := mk_span "main.rs" n 4.
Definition xs_name (x : string) : expr := name x (xs_at 1).
Definition xs_call (f : string) (es : list expr) (cs : list tt) : expr := ECall [] (xs_name f) (xs_at 2) es cs.
Definition xs_body : list stmt :=
  [SExpr (EIf [] [TIdent "if" (xs_at 2)] (xs_call "a" [ELit [] (LOther "1") (xs_at 2); ETry [] (EMethodCall [] (xs_name "b") [TPunct "." (xs_at 2); TIdent "m" (xs_at 2)] (xs_at 2) [] []) (xs_at 2)] [TPunct "," (xs_at 2)])
     (xs_at 3) [SExpr (EBlock [] [] (xs_at 4) [SExpr (ETry [] (xs_call "f" [] []) (xs_at 4)) None]) None] [TIdent "else" (xs_at 5)] (Some (EBlock [] [] (xs_at 5) []))) (Some (xs_at 5));
   SExpr (ETry [] (EMethodCall [] (EParen [] (xs_at 6) (xs_call "g" [ETuple [] (xs_at 6) [] []] [])) [TPunct "." (xs_at 6); TIdent "n" (xs_at 6)] (xs_at 6) [] []) (xs_at 6)) (Some (xs_at 6));
   SExpr (xs_call "Ok" [ETuple [] (xs_at 7) [] []] []) None].
(** fn main() -> Result {
      let mut n = 0;
      while n != 3 { n = step(&n)?; if n == 2 { continue; } log(n); }
      for x in list() { match x.kind { Some(y) => use_it(&mut y)?, None => { break; } 0 => return Err(x), _ => !flag || done()?, } }
      if let Some(z) = self.find(n).await? { unsafe { go(z)? } } else if a { return; }
      match pick(()) { Ok(v) => Ok((v, [1, n])), Err(e) => Err(e) }
    } *)
Definition xt_dot (e : expr) (m : string) (es : list expr) : expr := EMethodCall [] e [TPunct "." (xs_at 3); TIdent m (xs_at 3)] (xs_at 3) es [].
Definition xt_let (ts : list tt) (e : expr) : stmt := SLocalInit [] (TIdent "let" (xs_at 2) :: ts ++ [TPunct "=" (xs_at 2)]) e [] None [TPunct ";" (xs_at 2)].
Definition xt_num (s : string) : expr := ELit [] (LOther s) (xs_at 3).
Definition xt_op (l : expr) (o : list ascii) (r : expr) : expr := EBinary [] l (map (fun c => TPunct c (xs_at 3)) o) r.
Definition xt_ref (e : expr) : expr := EReference [] [TPunct "&" (xs_at 3)] e.
Definition xt_mut (e : expr) : expr := EReference [] [TPunct "&" (xs_at 3); TIdent "mut" (xs_at 3)] e.
Definition xt_try (e : expr) : expr := ETry [] e (xs_at 3).
Definition xt_semi (e : expr) : stmt := SExpr e (Some (xs_at 4)).
Definition xt_if (c : expr) (b : list stmt) (el : option expr) : expr := EIf [] [TIdent "if" (xs_at 4)] c (xs_at 4) b (match el with Some _ => [TIdent "else" (xs_at 4)] | None => [] end) el.
Definition xt_arm (pt : list tt) (e : expr) : arm := an_arm pt [] None (xs_at 5) (xs_at 5) e [TPunct "," (xs_at 5)].
Definition xt_some (f x : string) : list tt := [TIdent f (xs_at 5); TGroup Parenth [TIdent x (xs_at 5)] (xs_at 5)].
Definition xt_id (x : string) : list tt := [TIdent x (xs_at 5)].
Definition xt_match (e : expr) (ms : list arm) : expr := EMatch [] [TIdent "match" (xs_at 5)] e (xs_at 5) ms.
Definition xt_body : list stmt :=
  [xt_let [TIdent "mut" (xs_at 2); TIdent "n" (xs_at 2)] (xt_num "0");
   SExpr (EWhile [] [TIdent "while" (xs_at 3)] (xt_op (xs_name "n") ["!"; "="]%char (xt_num "3")) (xs_at 3)
     [xt_semi (EAssign [] (xs_name "n") [TPunct "=" (xs_at 3)] (xt_try (xs_call "step" [xt_ref (xs_name "n")] [])));
      SExpr (xt_if (xt_op (xs_name "n") ["="; "="]%char (xt_num "2")) [xt_semi (EContinue [] [TIdent "continue" (xs_at 3)])] None) None;
      xt_semi (xs_call "log" [xs_name "n"] [])]) None;
   SExpr (EForLoop [] (TIdent "for" (xs_at 4) :: xt_id "x" ++ [TIdent "in" (xs_at 4)]) (xs_call "list" [] []) (xs_at 4)
     [SExpr (xt_match (EField [] (xs_name "x") [TPunct "." (xs_at 4); TIdent "kind" (xs_at 4)])
        [xt_arm (xt_some "Some" "y") (xt_try (xs_call "use_it" [xt_mut (xs_name "y")] []));
         an_arm (xt_id "None") [] None (xs_at 4) (xs_at 4) (EBlock [] [] (xs_at 4) [xt_semi (EBreak [] [TIdent "break" (xs_at 4)] None)]) [];
         xt_arm [TLit (LOther "0") (xs_at 4)] (EReturn [] (xs_at 4) (Some (xs_call "Err" [xs_name "x"] [])));
         xt_arm (xt_id "_") (xt_op (EUnary [] [TPunct "!" (xs_at 4)] (xs_name "flag")) ["|"; "|"]%char (xt_try (xs_call "done" [] [])))]) None]) None;
   SExpr (xt_if (ELet [] (TIdent "let" (xs_at 5) :: xt_some "Some" "z" ++ [TPunct "=" (xs_at 5)]) (xt_try (EAwait [] (xt_dot (xs_name "self") "find" [xs_name "n"]) [TPunct "." (xs_at 5); TIdent "await" (xs_at 5)])))
     [SExpr (EUnsafe [] [TIdent "unsafe" (xs_at 5)] (xs_at 5) [SExpr (xt_try (xs_call "go" [xs_name "z"] [])) None]) None]
     (Some (xt_if (xs_name "a") [xt_semi (EReturn [] (xs_at 5) None)] None))) None;
   SExpr (xt_match (xs_call "pick" [ETuple [] (xs_at 6) [] []] [])
     [xt_arm (xt_some "Ok" "v") (xs_call "Ok" [ETuple [] (xs_at 6) [xs_name "v"; EArray [] (xs_at 6) [xt_num "1"; xs_name "n"] [TPunct "," (xs_at 6)]] [TPunct "," (xs_at 6)]] []);
      an_arm (xt_some "Err" "e") [] None (xs_at 6) (xs_at 6) (xs_call "Err" [xs_name "e"] []) []]) None].
Ltac hops_of l := lazymatch l with [] => constr:(@nil hop) | mk_seg ?x [] (mk_seg_at ?sp (Some (?a, ?b))) :: ?r => let t := hops_of r in constr:(mk_hop a b x sp :: t) end.
Ltac a_far :=
  lazymatch goal with |- post ?cl ?e =>
    let e1 := eval hnf in e in
    lazymatch e1 with
    | EPath [] ?p => let p1 := eval cbv in p in lazymatch p1 with mk_path false (mk_seg ?x [] (mk_seg_at ?sp None) :: ?l) => let hs := hops_of l in change (post cl (far x sp hs)); apply p_far end
    | ECall [] ?f ?q ?es ?cs => let f1 := eval cbv in f in lazymatch f1 with EPath [] (mk_path false (mk_seg ?x [] (mk_seg_at ?sp None) :: ?l)) => let hs := hops_of l in change (post cl (ECall [] (far x sp hs) q es cs)); apply p_call_far end
    end
  end.
Ltac side_word := solve [a_word | left; a_word | right; reflexivity | right; simpl; tauto | repeat constructor; a_word | reflexivity | discriminate | simpl; tauto].
Ltac in_fragment := repeat first [apply b_none | apply b_last | apply b_let | apply b_let_else | apply b_local | apply (b_let _ _ [_]) | apply b_semi | apply b_blocky | apply p_name | a_far | apply p_lit | apply p_unit | apply p_paren | apply p_tuple | apply p_array | apply p_call | apply p_method | apply p_turbo | apply p_field | apply p_nth | apply p_await | apply p_try | apply p_index
  | apply p_block | apply p_unsafe | apply p_if | apply p_else | apply p_match | apply p_loop | apply p_while | apply p_for | apply a_none | apply a_last | apply a_more | apply m_none | apply m_last | apply m_comma | apply m_blocky
  | apply f_return | apply f_return_none | apply f_break | apply f_break_some | apply f_lambda | apply f_continue | apply f_oper | apply u_ref | apply u_mut | apply u_op | eapply o_binary | eapply o_range | apply o_assign | apply c_let | apply c_oper | apply o_un | apply u_post
  | apply g_none | apply g_if | apply Nat.ltb_lt; reflexivity | side_word | split; reflexivity].
Definition ends_post (b : list stmt) : bool := match rev b with SExpr e None :: _ => is_post e | _ => true end.
Lemma a_body cl b : block cl b -> ends_post b = true -> body cl b.
Proof. intros B H. split; [exact B|]. intros b0 e ->. unfold ends_post in H. rewrite rev_app_distr in H. exact H. Qed.
Example C52_ex_hypotheses : body false xr_body /\ body false xs_body /\ body false xt_body /\ node_events (ev_attr xs_env) [xa_word ["inline"]] [] /\ word (ft_crate xp_ft) /\
  at_path (preset_flavors xp_ft) ["default"] (default_flavor xp_ft) /\ preset_call ["default"] = "inspect_err".
Proof.
  split; [apply a_body; [in_fragment|reflexivity]|]. split; [apply a_body; [in_fragment|reflexivity]|]. split; [apply a_body; [in_fragment|reflexivity]|]. split.
  - apply ne_foreign; [reflexivity| |constructor]. intros (x & r & H1 & H2 & _). vm_compute in H1. inversion H1; subst. discriminate.
  - split; [vm_compute; intuition discriminate|]. split; [apply FlavorNameProofs.get_flavor_ok; vm_compute; reflexivity|reflexivity].
Qed.
(** the expansion, with the bodies of the closures left out, and what it does *)
Fixpoint xs_short (t : tt) : list tt := match t with TPunct "|" _ => [TPunct "|" call_site] | TGroup Parenth (TPunct "|" _ :: _) _ => [TGroup Parenth [qi "CLOSURE"] call_site] | TGroup d ts _ => [TGroup d (flat_map xs_short ts) call_site] | _ => [t] end.
Definition xs_out (b : list stmt) : list stmt :=
  match item_actual (out_of xs_env (f_core (default_flavor xp_ft)) (x_fn [xa_word ["inline"]] "main" (RetPath (xa_path ["Result"])) b)) with IFn _ _ _ _ b' => b' | _ => [] end.
Example C52_ex_text :
  Properties_Print.text (flat_map xs_short (flat_map stoks (xs_out xs_body))) =
    "if a ( 1 , b . m ( ) . inspect_err ( CLOSURE ) ? ) { { f ( ) . inspect_err ( CLOSURE ) ? } } else { } ; ( g ( ( ) ) ) . n ( ) . inspect_err ( CLOSURE ) ? ; Ok ( ( ) ) " /\
  Properties_Print.text (flat_map xs_short (flat_map stoks (xs_out xr_body))) =
    "let x = f ( g ( ) . inspect_err ( CLOSURE ) ? ) . inspect_err ( CLOSURE ) ? ; if c ( ) { return Err ( x ) . inspect_err ( CLOSURE ) ; } h ( x ) . inspect_err ( CLOSURE ) " /\
  Properties_Print.text (flat_map xs_short (flat_map stoks (xs_out xt_body))) =
    "let mut n = 0 ; while n ! = 3 { n = step ( & n ) . inspect_err ( CLOSURE ) ? ; if n = = 2 { continue ; } log ( n ) ; } for x in list ( ) { match x . kind { Some ( y ) = > use_it ( & mut y ) . inspect_err ( CLOSURE ) ? , None = > { break ; } 0 = > return Err ( x ) . inspect_err ( CLOSURE ) , _ = > ! flag | | done ( ) . inspect_err ( CLOSURE ) ? , } } if let Some ( z ) = self . find ( n ) . await . inspect_err ( CLOSURE ) ? { unsafe { go ( z ) . inspect_err ( CLOSURE ) ? } } else if a { return ; } match pick ( ( ) ) { Ok ( v ) = > Ok ( ( v , [ 1 , n ] ) ) , Err ( e ) = > Err ( e ) . inspect_err ( CLOSURE ) } . inspect_err ( CLOSURE ) ".
Proof. vm_compute. repeat split. Qed.
(** The condition on the tail ([body]) cannot be dropped: of [a + b] and [*a] at the end of a function the method is called on the operand, not on the value of the function.  *)
Theorem C52_operator_tail_refuted : exists e1 e2, block false [SExpr e1 None] /\ block false [SExpr e2 None] /\
  (exists o f sp1 sp2 sp3 sp4 fn, e1 = EBinary [] (name "a" sp1) o (name "b" sp2) /\ xs_out [SExpr e1 None] = [SExpr (EBinary [] (name "a" sp1) o (EMethodCall [] (name "b" sp2) [TPunct "." sp3; fn] sp4 [f] [])) None]) /\
  (exists o f sp1 sp3 sp4 fn, e2 = EUnary [] o (name "a" sp1) /\ xs_out [SExpr e2 None] = [SExpr (EUnary [] o (EMethodCall [] (name "a" sp1) [TPunct "." sp3; fn] sp4 [f] [])) None]).
Proof.
  exists (xt_op (xs_name "a") ["+"]%char (xs_name "b")), (EUnary [] [TPunct "*" (xs_at 3)] (xs_name "a")). split; [in_fragment|]. split; [in_fragment|]. split.
  - do 7 eexists. split; [reflexivity|]. vm_compute. reflexivity.
  - do 6 eexists. split; [reflexivity|]. vm_compute. reflexivity.
Qed.
Print Assumptions C52_operator_tail_refuted.
(** [m] and [g] succeed, [a] says [a0], [f] and [n] fail or not *)
Definition xs_lib (a0 : string) (f0 n0 : val) : library := fun _ f _ =>
  (match f with VName "a" => VName a0 | VName "m" => VOk VUnit | VName "f" => f0 | VName "n" => n0 | _ => VUnit end, []).
Example C52_ex_run :
  xr_see (xs_lib "true" (VErr (VName "bad")) VUnit) xs_body = (Go (VErr (VName "bad")), map VName ["m"; "a"; "f"], []) /\
  xr_see (xs_lib "true" (VErr (VName "bad")) VUnit) (xs_out xs_body) = (Go (VErr (VName "bad")), map VName ["m"; "a"; "f"], [VName "bad"]) /\
  xr_see (xs_lib "false" VUnit (VOk VUnit)) xs_body = (Go (VOk VUnit), map VName ["m"; "a"; "g"; "n"], []) /\
  xr_see (xs_lib "false" VUnit (VOk VUnit)) (xs_out xs_body) = (Go (VOk VUnit), map VName ["m"; "a"; "g"; "n"], []).
Proof. vm_compute. repeat split. Qed.
(** [step] counts up, [list] has the elements 7 and 8, of kind [Some(k)] and [None]; [use_it] writes 5 to what it is given, [find], [go] and [pick] answer as told *)
Definition xt_eq (vs : list val) : bool := match vs with [VName a; VName b] => String.eqb a b | _ => false end.
Definition xt_bool (b : bool) : val := VName (if b then "true" else "false").
Definition xt_lib (use0 find0 go0 pick0 : val) : library := fun past f vs =>
  match f, vs with
  | VName "step", [VName n] => (VOk (VName (if String.eqb n "0" then "1" else if String.eqb n "1" then "2" else "3")), [])
  | VName "!=", _ => (xt_bool (negb (xt_eq vs)), [])
  | VName "==", _ => (xt_bool (xt_eq vs), [])
  | VName "next", _ =>
      (match length (filter (fun c => match fst c with VName "next" => true | _ => false end) past) with 0 => VSome (VName "7") | 1 => VSome (VName "8") | _ => VName "None" end, [])
  | VName ".kind", [VName n] => (if String.eqb n "7" then VSome (VName "k") else VName "None", [])
  | VName "use_it", _ => (use0, [VName "5"])
  | VName ".await", _ => (find0, [])
  | VName "go", _ => (go0, [])
  | VName "pick", _ => (pick0, [])
  | _, _ => (VName "x", [])
  end.
Definition xt_names (l : list val) : list string := flat_map (fun v => match v with VName s => [s] | _ => [] end) l.
Definition xt_see (n : nat) (lib : library) (b : list stmt) := let r := run_fn n lib b xr_start in (fst r, xt_names (map fst (w_calls (snd r))), w_log (snd r)).
Definition xt_head : list string := ["!="; "step"; "=="; "log"; "!="; "step"; "=="; "!="; "step"; "=="; "log"; "!="; "list"; "into_iter"; "next"; ".kind"; "use_it"].
Definition xt_ok : library := xt_lib (VOk VUnit) (VOk (VSome (VName "z"))) (VOk VUnit) (VOk (VName "v")).
Example C52_ex_run_loops :
  (* to the end; the first round of [for] goes through [use_it], the second breaks *)
  xt_see 4 xt_ok xt_body = (Go (VOk (VTuple [VName "v"; VArray [VName "1"; VName "3"]])), xt_head ++ ["next"; ".kind"; "find"; ".await"; "go"; "pick"], []) /\
  xt_see 4 xt_ok (xs_out xt_body) = xt_see 4 xt_ok xt_body /\
  (* left in a loop, at [go], and with the error of [pick], which two observers see *)
  xt_see 4 (xt_lib (VErr (VName "bad")) VUnit VUnit VUnit) xt_body = (Go (VErr (VName "bad")), xt_head, []) /\
  xt_see 4 (xt_lib (VErr (VName "bad")) VUnit VUnit VUnit) (xs_out xt_body) = (Go (VErr (VName "bad")), xt_head, [VName "bad"]) /\
  xt_see 4 (xt_lib (VOk VUnit) (VOk (VSome (VName "z"))) (VErr (VName "no")) VUnit) (xs_out xt_body) = (Go (VErr (VName "no")), xt_head ++ ["next"; ".kind"; "find"; ".await"; "go"], [VName "no"]) /\
  xt_see 4 (xt_lib (VOk VUnit) (VOk (VSome (VName "z"))) (VOk VUnit) (VErr (VName "late"))) (xs_out xt_body) =
    (Go (VErr (VName "late")), xt_head ++ ["next"; ".kind"; "find"; ".await"; "go"; "pick"], [VName "late"; VName "late"]) /\
  (* three rounds are too few for the [while], which asks four times *)
  fst (run_fn 3 xt_ok xt_body xr_start) = Far.
Proof. vm_compute. repeat split. Qed.
(** under [anyhow]: an error has one context more for every hook it passes *)
Definition xt_anyhow : list stmt :=
  match item_actual (out_of xs_env (f_core (anyhow_flavor xp_ft)) (x_fn [xa_word ["inline"]] "main" (RetPath (xa_path ["Result"])) xt_body)) with IFn _ _ _ _ b' => b' | _ => [] end.
Example C52_ex_run_context :
  at_path (preset_flavors xp_ft) ["anyhow"] (anyhow_flavor xp_ft) /\
  (forall use0 find0 go0 pick0, blind strip (blindfold (xt_lib use0 find0 go0 pick0))) /\
  xt_see 4 (blindfold (xt_lib (VErr (VName "bad")) VUnit VUnit VUnit)) xt_anyhow = (Go (VErr (VCtx (VName "bad"))), xt_head, []) /\
  xt_see 4 (blindfold (xt_lib (VOk VUnit) (VOk (VSome (VName "z"))) (VOk VUnit) (VErr (VName "late")))) xt_anyhow =
    (Go (VErr (VCtx (VCtx (VName "late")))), xt_head ++ ["next"; ".kind"; "find"; ".await"; "go"; "pick"], []).
Proof. split; [apply FlavorNameProofs.get_flavor_ok; vm_compute; reflexivity|]. split; [intros; apply blindfold_blind|]. vm_compute. split; reflexivity. Qed.
(** what [use_it] writes through [&mut] is seen: { let mut y = 1; use_it(&mut y)?; y += 2; let r = &mut y; *r = y; if let Some(z) = y { z } else { y } } *)
Definition xv_body : list stmt :=
  [xt_let [TIdent "mut" (xs_at 2); TIdent "y" (xs_at 2)] (xt_num "1");
   xt_semi (xt_try (xs_call "use_it" [xt_mut (xs_name "y")] []));
   xt_semi (xt_op (xs_name "y") ["+"; "="]%char (xt_num "2"));
   xt_let [TIdent "r" (xs_at 2)] (xt_mut (xs_name "y"));
   xt_semi (EAssign [] (EUnary [] [TPunct "*" (xs_at 3)] (xs_name "r")) [TPunct "=" (xs_at 3)] (xs_call "Some" [xs_name "y"] []));
   SExpr (xt_if (ELet [] (TIdent "let" (xs_at 5) :: xt_some "Some" "z" ++ [TPunct "=" (xs_at 5)]) (xs_name "y")) [SExpr (xs_name "z") None] (Some (EBlock [] [] (xs_at 4) [SExpr (xs_name "y") None]))) None].
Example C52_ex_run_borrowed : body false xv_body /\ exists lib : library,
  (forall past a b, lib past (VName "+=") [VSeen (VName a); VName b] = (VUnit, [VName (a ++ "+" ++ b)])) /\ (forall past v, lib past (VName "use_it") [VSeen v] = (VOk VUnit, [VName "5"])) /\
  fst (run_fn 0 lib xv_body xr_start) = Go (VName "5+2") /\ run_fn 0 lib (xs_out xv_body) xr_start = run_fn 0 lib xv_body xr_start.
Proof.
  split; [apply a_body; [in_fragment|reflexivity]|].
  exists (fun _ f vs => match f, vs with VName "+=", [VSeen (VName a); VName b] => (VUnit, [VName (a ++ "+" ++ b)]) | VName "use_it", [VSeen _] => (VOk VUnit, [VName "5"]) | _, _ => (VUnit, []) end).
  split; [reflexivity|]. split; [reflexivity|]. vm_compute. split; reflexivity.
Qed.
(** fn main() -> Result {
      let Some(y) = find(v[pos()?])? else { return Err(1); };
      let z: u32 = match y { n if check(n)? => n, _ => loop { break get()?; }, };
      Ok(z)
    }
    and { let w: u8; w = get().and_then(|a| Ok(conv(a)?)).or_else(|e| Err(e))?; Ok(w) } *)
Definition xu_guarded (pt : list tt) (g e : expr) : arm := an_arm pt [TIdent "if" (xs_at 5)] (Some g) (xs_at 5) (xs_at 5) e [TPunct "," (xs_at 5)].
Definition xu_else (ts : list tt) (e : expr) (b : list stmt) : stmt :=
  SLocalInit [] (TIdent "let" (xs_at 2) :: ts ++ [TPunct "=" (xs_at 2)]) e [TIdent "else" (xs_at 2)] (Some (EBlock [] [] (xs_at 2) b)) [TPunct ";" (xs_at 2)].
Definition xu_typed (x t : string) : list tt := [TIdent x (xs_at 2); TPunct ":" (xs_at 2); TIdent t (xs_at 2)].
Definition xu_lambda (x : string) (e : expr) : expr := EClosure [] (TPunct "|" (xs_at 6) :: [TIdent x (xs_at 6)] ++ [TPunct "|" (xs_at 6)]) RetNone e.
Definition xu_body : list stmt :=
  [xu_else (xt_some "Some" "y") (xt_try (xs_call "find" [EIndex [] (xs_name "v") (xs_at 2) (xt_try (xs_call "pos" [] []))] [])) [xt_semi (EReturn [] (xs_at 2) (Some (xs_call "Err" [xt_num "1"] [])))];
   xt_let (xu_typed "z" "u32") (xt_match (xs_name "y") [xu_guarded (xt_id "n") (xt_try (xs_call "check" [xs_name "n"] [])) (xs_name "n");
     xt_arm (xt_id "_") (ELoop [] [TIdent "loop" (xs_at 5)] (xs_at 5) [xt_semi (EBreak [] [TIdent "break" (xs_at 5)] (Some (xt_try (xs_call "get" [] []))))])]);
   SExpr (xs_call "Ok" [xs_name "z"] []) None].
Definition xu_more : list stmt :=
  [SLocal [] (TIdent "let" (xs_at 2) :: xu_typed "w" "u8") [TPunct ";" (xs_at 2)];
   xt_semi (EAssign [] (xs_name "w") [TPunct "=" (xs_at 3)]
     (xt_try (xt_dot (xt_dot (xs_call "get" [] []) "and_then" [xu_lambda "a" (xs_call "Ok" [xt_try (xs_call "conv" [xs_name "a"] [])] [])]) "or_else" [xu_lambda "e" (xs_call "Err" [xs_name "e"] [])])));
   SExpr (xs_call "Ok" [xs_name "w"] []) None].
(** [check] and [get] answer as told, [find] with [y0] *)
Definition xu_lib (check0 get0 : val) (y0 : val) : library := fun _ f _ =>
  (match f with VName "pos" => VOk (VName "7") | VName "find" => VOk y0 | VName "check" => check0 | VName "get" => get0 | VName "[]" => VName "item" | VName "conv" => y0 | _ => VUnit end, []).
(** without the bodies of the closures that are inserted *)
Fixpoint xu_short (t : tt) : list tt :=
  match t with TGroup Parenth [TPunct "|" _; TIdent _ _; TPunct "|" _; TGroup Brace _ _] _ | TGroup Parenth [TPunct "|" _; TPunct "|" _; TGroup Brace _ _] _ => [TGroup Parenth [qi "CLOSURE"] call_site] | TGroup d ts _ => [TGroup d (flat_map xu_short ts) call_site] | _ => [t] end.
Example C52_ex_more : body false xu_body /\ body false xu_more /\
  Properties_Print.text (flat_map xu_short (flat_map stoks (xs_out xu_body))) =
    "let Some ( y ) = find ( v [ pos ( ) . inspect_err ( CLOSURE ) ? ] ) . inspect_err ( CLOSURE ) ? else { return Err ( 1 ) . inspect_err ( CLOSURE ) ; } ; let z : u32 = match y { n if check ( n ) . inspect_err ( CLOSURE ) ? = > n , _ = > loop { break get ( ) . inspect_err ( CLOSURE ) ? ; } , } ; Ok ( z ) " /\
  Properties_Print.text (flat_map xu_short (flat_map stoks (xs_out xu_more))) =
    "let w : u8 ; w = get ( ) . and_then ( | a | Ok ( conv ( a ) . inspect_err ( CLOSURE ) ? ) ) . or_else ( | e | Err ( e ) . inspect_err ( CLOSURE ) ) . inspect_err ( CLOSURE ) ? ; Ok ( w ) " /\
  rust_parse [TGroup Brace (flat_map stoks (xs_out xu_more)) (xs_at 1)] = Some (EBlock [] [] (xs_at 1) (xs_out xu_more)).
Proof. split; [apply a_body; [in_fragment|reflexivity]|]. split; [apply a_body; [in_fragment|reflexivity]|]. vm_compute. repeat split. Qed.
Example C52_ex_run_more :
  xt_see 4 (xu_lib (VOk (VName "true")) VUnit (VSome (VName "y"))) xu_body = (Go (VOk (VName "y")), ["pos"; "[]"; "find"; "check"], []) /\
  xt_see 4 (xu_lib (VOk (VName "false")) (VOk (VName "g")) (VSome (VName "y"))) (xs_out xu_body) = (Go (VOk (VName "g")), ["pos"; "[]"; "find"; "check"; "get"], []) /\
  xt_see 4 (xu_lib (VErr (VName "bad")) VUnit (VSome (VName "y"))) (xs_out xu_body) = (Go (VErr (VName "bad")), ["pos"; "[]"; "find"; "check"], [VName "bad"]) /\
  xt_see 4 (xu_lib VUnit VUnit (VName "None")) (xs_out xu_body) = (Go (VErr (VName "1")), ["pos"; "[]"; "find"], [VName "1"]).
Proof. vm_compute. repeat split. Qed.
(** closures given to methods of [Result]: an error of [conv] leaves the first closure, is shown there, in the second closure and where it leaves the function *)
Example C52_ex_run_closures :
  xt_see 4 (xu_lib VUnit (VOk (VName "g")) (VOk (VName "c"))) xu_more = (Go (VOk (VName "c")), ["get"; "conv"], []) /\
  xt_see 4 (xu_lib VUnit (VOk (VName "g")) (VErr (VName "bad"))) xu_more = (Go (VErr (VName "bad")), ["get"; "conv"], []) /\
  xt_see 4 (xu_lib VUnit (VOk (VName "g")) (VErr (VName "bad"))) (xs_out xu_more) = (Go (VErr (VName "bad")), ["get"; "conv"], [VName "bad"; VName "bad"; VName "bad"]) /\
  xt_see 4 (xu_lib VUnit (VErr (VName "no")) VUnit) (xs_out xu_more) = (Go (VErr (VName "no")), ["get"], [VName "no"; VName "no"]).
Proof. vm_compute. repeat split. Qed.
(** fn main() -> Result {
      let s = std::fs::read(Path::new("x"))?;
      Self::check(&s, Level::Info).map(|a| crate::conv(a))?;
      Ok(s)
    } *)
Definition xp_far (x : string) (l : list string) : expr := far x (xs_at 7) (map (fun y => mk_hop (xs_at 7) (xs_at 8) y (xs_at 9)) l).
Definition xp_call (x : string) (l : list string) (es : list expr) (cs : list tt) : expr := ECall [] (xp_far x l) (xs_at 8) es cs.
Definition xp_body : list stmt :=
  [xt_let (xt_id "s") (xt_try (xp_call "std" ["fs"; "read"] [xp_call "Path" ["new"] [ELit [] (LStr "x") (xs_at 3)] []] []));
   xt_semi (xt_try (xt_dot (xp_call "Self" ["check"] [xt_ref (xs_name "s"); xp_far "Level" ["Info"]] [TPunct "," (xs_at 3)]) "map" [xu_lambda "a" (xp_call "crate" ["conv"] [xs_name "a"] [])]));
   SExpr (xs_call "Ok" [xs_name "s"] []) None].
Definition xp_lib (read0 check0 : val) : library := fun _ f vs =>
  (match f with VName "std::fs::read" => read0 | VName "Self::check" => match vs with [_; VName "Level::Info"] => check0 | _ => VErr (VName "level") end | VName "crate::conv" => VName "c" | _ => VName "p" end, []).
Example C52_ex_paths : body false xp_body /\
  Properties_Print.text (flat_map xu_short (flat_map stoks (xs_out xp_body))) =
    "let s = std : : fs : : read ( Path : : new ( 'x' ) ) . inspect_err ( CLOSURE ) ? ; Self : : check ( & s , Level : : Info ) . map ( | a | crate : : conv ( a ) ) . inspect_err ( CLOSURE ) ? ; Ok ( s ) " /\
  rust_parse [TGroup Brace (flat_map stoks (xs_out xp_body)) (xs_at 1)] = Some (EBlock [] [] (xs_at 1) (xs_out xp_body)) /\
  xt_see 4 (xp_lib (VOk (VName "s")) (VOk (VName "k"))) (xs_out xp_body) = (Go (VOk (VName "s")), ["Path::new"; "std::fs::read"; "Self::check"; "crate::conv"], []) /\
  xt_see 4 (xp_lib (VOk (VName "s")) (VErr (VName "bad"))) (xs_out xp_body) = (Go (VErr (VName "bad")), ["Path::new"; "std::fs::read"; "Self::check"], [VName "bad"]).
Proof. split; [apply a_body; [in_fragment|reflexivity]|]. vm_compute. repeat split. Qed.
(** fn main() -> Result {
      let n = s.trim().parse::<u32>()?;
      let v = load(n)?.0.iter().collect::<Result<Vec<_>, E>>()?;
      Ok(v.1)
    } *)
Definition xf_turbo (e : expr) (m : string) (g : list tt) : expr := EMethodCall [] e (TPunct "." (xs_at 3) :: TIdent m (xs_at 3) :: fish (xs_at 4) (xs_at 5) (xs_at 6) g (xs_at 7)) (xs_at 8) [] [].
Definition xf_nth (e : expr) (n : string) : expr := EField [] e [TPunct "." (xs_at 3); TLit (LOther n) (xs_at 4)].
Definition xf_body : list stmt :=
  [xt_let (xt_id "n") (xt_try (xf_turbo (xt_dot (xs_name "s") "trim" []) "parse" [qi "u32"]));
   xt_let (xt_id "v") (xt_try (xf_turbo (xt_dot (xf_nth (xt_try (xs_call "load" [xs_name "n"] [])) "0") "iter" []) "collect" [qi "Result"; qp "<"; qi "Vec"; qp "<"; qi "_"; qp ">"; qp ","; qi "E"; qp ">"]));
   SExpr (xs_call "Ok" [xf_nth (xs_name "v") "1"] []) None].
Definition xf_lib (parse load collect : val) : library := fun _ f vs =>
  (match f with VName "parse::<u32>" => parse | VName "load" => load | VName "collect::<Result<Vec<_>,E>>" => collect | VName ".1" => VName "w" | _ => VName "p" end, []).
Example C52_ex_generics : body false xf_body /\
  Properties_Print.text (flat_map xu_short (flat_map stoks (xs_out xf_body))) =
    "let n = s . trim ( ) . parse : : < u32 > ( ) . inspect_err ( CLOSURE ) ? ; let v = load ( n ) . inspect_err ( CLOSURE ) ? . 0 . iter ( ) . collect : : < Result < Vec < _ > , E > > ( ) . inspect_err ( CLOSURE ) ? ; Ok ( v . 1 ) " /\
  rust_parse [TGroup Brace (flat_map stoks (xs_out xf_body)) (xs_at 1)] = Some (EBlock [] [] (xs_at 1) (xs_out xf_body)) /\
  xt_see 4 (xf_lib (VOk (VName "4")) (VOk (VName "l")) (VOk (VName "c"))) (xs_out xf_body) = (Go (VOk (VName "w")), ["trim"; "parse::<u32>"; "load"; ".0"; "iter"; "collect::<Result<Vec<_>,E>>"; ".1"], []) /\
  xt_see 4 (xf_lib (VErr (VName "bad")) VUnit VUnit) (xs_out xf_body) = (Go (VErr (VName "bad")), ["trim"; "parse::<u32>"], [VName "bad"]) /\
  xt_see 4 (xf_lib (VOk (VName "4")) (VOk (VName "l")) (VErr (VName "bad"))) (xs_out xf_body) = (Go (VErr (VName "bad")), ["trim"; "parse::<u32>"; "load"; ".0"; "iter"; "collect::<Result<Vec<_>,E>>"], [VName "bad"]).
Proof. split; [apply a_body; [in_fragment|reflexivity]|]. vm_compute. repeat split. Qed.
(** fn f(s: &str) -> R {
      let t = cut(&s[1..=end(s)?])?;
      let r = pick(low(t)?..t.n());
      Ok(r)
    } *)
Definition xg_range (l : expr) (o : list tt) (r : expr) : expr := ERange [] (Some l) o (Some r).
Definition xg_body : list stmt :=
  [xt_let (xt_id "t") (xt_try (xs_call "cut" [EReference [] [qp "&"] (EIndex [] (xs_name "s") (xs_at 3) (xg_range (xt_num "1") [qp "."; qp "."; qp "="] (xt_try (xs_call "end" [xs_name "s"] []))))] []));
   xt_let (xt_id "r") (xs_call "pick" [xg_range (xt_try (xs_call "low" [xs_name "t"] [])) [qp "."; qp "."] (xt_dot (xs_name "t") "n" [])] []);
   SExpr (xs_call "Ok" [xs_name "r"] []) None].
Definition xg_lib (fin cut low : val) : library := fun _ f vs => (match f with VName "end" => fin | VName "cut" => cut | VName "low" => low | VName "pick" => VName "p" | _ => VTuple vs end, []).
Example C52_ex_ranges : body false xg_body /\
  Properties_Print.text (flat_map xu_short (flat_map stoks (xs_out xg_body))) =
    "let t = cut ( & s [ 1 . . = end ( s ) . inspect_err ( CLOSURE ) ? ] ) . inspect_err ( CLOSURE ) ? ; let r = pick ( low ( t ) . inspect_err ( CLOSURE ) ? . . t . n ( ) ) ; Ok ( r ) " /\
  rust_parse [TGroup Brace (flat_map stoks (xs_out xg_body)) (xs_at 1)] = Some (EBlock [] [] (xs_at 1) (xs_out xg_body)) /\
  xt_see 4 (xg_lib (VOk (VName "9")) (VOk (VName "c")) (VOk (VName "l"))) (xs_out xg_body) = (Go (VOk (VName "p")), ["end"; "..="; "[]"; "cut"; "low"; "n"; ".."; "pick"], []) /\
  xt_see 4 (xg_lib (VErr (VName "bad")) VUnit VUnit) (xs_out xg_body) = (Go (VErr (VName "bad")), ["end"], [VName "bad"]) /\
  xt_see 4 (xg_lib (VOk (VName "9")) (VOk (VName "c")) (VErr (VName "low"))) (xs_out xg_body) = (Go (VErr (VName "low")), ["end"; "..="; "[]"; "cut"; "low"], [VName "low"]) /\
  rust_parse [qi "a"; qp "."; qp "."] = None /\ rust_parse [qp "."; qp "."; qi "a"] = None /\ rust_parse [qi "a"; qp "."; qp "."; qp "."; qi "b"] = None /\ rust_parse [qi "a"; qp "."; qp "."; qi "b"; qp "."; qp "."; qi "c"] = None.
Proof. split; [apply a_body; [in_fragment|reflexivity]|]. vm_compute. repeat split. Qed.
(** [a + b * c == d && e - f - g < h || i] is [(((a + (b * c)) == d) && (((e - f) - g) < h)) || i], [x = a..b + c] is [x = (a..(b + c))], [x += a = b] is rejected *)
Example C52_ex_precedence :
  let bin l o r := EBinary [] l o r in
  rust_parse [qi "a"; qp "+"; qi "b"; qp "*"; qi "c"; qp "="; qp "="; qi "d"; qp "&"; qp "&"; qi "e"; qp "-"; qi "f"; qp "-"; qi "g"; qp "<"; qi "h"; qp "|"; qp "|"; qi "i"] =
    Some (bin (bin (bin (bin (x_name "a") [qp "+"] (bin (x_name "b") [qp "*"] (x_name "c"))) [qp "="; qp "="] (x_name "d")) [qp "&"; qp "&"]
      (bin (bin (bin (x_name "e") [qp "-"] (x_name "f")) [qp "-"] (x_name "g")) [qp "<"] (x_name "h"))) [qp "|"; qp "|"] (x_name "i")) /\
  rust_parse [qi "x"; qp "="; qi "a"; qp "."; qp "."; qi "b"; qp "+"; qi "c"] = Some (EAssign [] (x_name "x") [qp "="] (ERange [] (Some (x_name "a")) [qp "."; qp "."] (Some (bin (x_name "b") [qp "+"] (x_name "c"))))) /\
  rust_parse [qi "x"; qp "+"; qp "="; qi "a"; qp "="; qi "b"] = None.
Proof. vm_compute. repeat split. Qed.
(** Every level, loosest first and tightest first; operators of one level from the left; comparisons and ranges never twice. *)
Definition xl_op (o : string) : list tt := map qp (list_ascii_of_string o).
Definition xl_row (os : list string) : list tt := qi "a" :: flat_map (fun o => xl_op o ++ [qi "a"]) os.
Definition xl_right (os : list string) : expr := fold_right (fun o e => EBinary [] (x_name "a") (xl_op o) e) (x_name "a") os.
Definition xl_left (os : list string) : expr := fold_left (fun e o => EBinary [] e (xl_op o) (x_name "a")) os (x_name "a").
Definition xl_same : list (list string) :=
  [["*"; "/"; "%"; "*"]; ["+"; "-"; "+"]; ["<<"; ">>"; "<<"]; ["&"; "&"]; ["^"; "^"]; ["|"; "|"]; ["&&"; "&&"]; ["||"; "||"]].
Definition xl_compare : list string := ["=="; "!="; "<"; ">"; "<="; ">="].
Definition xl_pairs (os : list string) : list (list string) := flat_map (fun o => map (fun o' => [o; o']) os) os.
Example C52_ex_levels :
  let up := ["||"; "&&"; "=="; "|"; "^"; "&"; "<<"; "+"; "*"] in
  rust_parse (xl_row up) = Some (xl_right up) /\ rust_parse (xl_row (rev up)) = Some (xl_left (rev up)) /\
  rust_parse (xl_row ([".."] ++ up)) = Some (ERange [] (Some (x_name "a")) (xl_op "..") (Some (xl_right up))) /\
  map rust_parse (map xl_row xl_same) = map Some (map xl_left xl_same) /\
  map rust_parse (map xl_row (xl_pairs xl_compare ++ xl_pairs [".."; "..="])) = repeat None 40 /\
  map rust_parse (map (fun o => xl_row [o; "|"; "&&"]) xl_compare) =
    map (fun o => Some (EBinary [] (EBinary [] (x_name "a") (xl_op o) (EBinary [] (x_name "a") (xl_op "|") (x_name "a"))) (xl_op "&&") (x_name "a"))) xl_compare.
Proof. repeat split; vm_compute; reflexivity. Qed.
(** fn f(a: u32) -> R {
      if low(a)? + 1 < high(a)? && fine(a)? { return Ok(a * 2 + low(a)?); }
      Ok(a)
    } *)
Definition xh_bin (l : expr) (o : list tt) (r : expr) : expr := EBinary [] l o r.
Definition xh_try (x : string) : expr := xt_try (xs_call x [xs_name "a"] []).
Definition xh_body : list stmt :=
  [SExpr (EIf [] [qi "if"] (xh_bin (xh_bin (xh_bin (xh_try "low") [qp "+"] (xt_num "1")) [qp "<"] (xh_try "high")) [qp "&"; qp "&"] (xh_try "fine")) (xs_at 3)
     [SExpr (EReturn [] (xs_at 3) (Some (xs_call "Ok" [xh_bin (xh_bin (xs_name "a") [qp "*"] (xt_num "2")) [qp "+"] (xh_try "low")] []))) (Some (xs_at 3))] [] None) None;
   SExpr (xs_call "Ok" [xs_name "a"] []) None].
Definition xh_lib (less fine : val) : library := fun _ f vs => (match f with VName "<" => less | VName "fine" => fine | VName "low" => VOk (VName "l") | VName "high" => VOk (VName "h") | _ => VName "n" end, []).
Example C52_ex_operators : body false xh_body /\
  Properties_Print.text (flat_map xu_short (flat_map stoks (xs_out xh_body))) =
    "if low ( a ) . inspect_err ( CLOSURE ) ? + 1 < high ( a ) . inspect_err ( CLOSURE ) ? & & fine ( a ) . inspect_err ( CLOSURE ) ? { return Ok ( a * 2 + low ( a ) . inspect_err ( CLOSURE ) ? ) ; } Ok ( a ) " /\
  rust_parse [TGroup Brace (flat_map stoks (xs_out xh_body)) (xs_at 1)] = Some (EBlock [] [] (xs_at 1) (xs_out xh_body)) /\
  xt_see 4 (xh_lib (VName "true") (VOk (VName "true"))) (xs_out xh_body) = (Go (VOk (VName "n")), ["low"; "+"; "high"; "<"; "fine"; "*"; "low"; "+"], []) /\
  xt_see 4 (xh_lib (VName "false") VUnit) (xs_out xh_body) = (Go (VOk (VName "a")), ["low"; "+"; "high"; "<"], []) /\
  xt_see 4 (xh_lib (VName "true") (VErr (VName "bad"))) (xs_out xh_body) = (Go (VErr (VName "bad")), ["low"; "+"; "high"; "<"; "fine"], [VName "bad"]).
Proof. split; [apply a_body; [in_fragment|reflexivity]|]. vm_compute. repeat split. Qed.
(** texts that are rejected: [a b], [a as T.m()], [f(,)], [if a], [a.if()], [{ a b }], [? a], [a == b < c], [a => b], [let x = y], a [match] whose arms have no comma, [--a], [return &a], [while let x { }], [for x y { }], [await]; [a[]], [|x|], [|x, y| { }], [|x| a + b], [{ let x = {} else { } }], [match x { n if => y }], [{ let = y; }]; [a::], [::a], [Self], [a::if], [a:b]; [a.m::<T()], [a.m::<T>], [a.m::()], [a.m::<T>>()], [a.0()], [a.1e2], [a."x"], [a.m::<fn() -> T>()] (Rust has that one) *)
Example C52_ex_rejected :
  map rust_parse [[qi "a"; qi "b"]; [qi "a"; qi "as"; qi "T"; qp "."; qi "m"; qg Parenth []]; [qi "f"; qg Parenth [qp ","]]; [qi "if"; qi "a"]; [qi "a"; qp "."; qi "if"; qg Parenth []];
    [qg Brace [qi "a"; qi "b"]]; [qp "?"; qi "a"]; [qi "a"; qp "="; qp "="; qi "b"; qp "<"; qi "c"]; [qi "a"; qp "="; qp ">"; qi "b"]; [qi "let"; qi "x"; qp "="; qi "y"];
    [qi "match"; qi "x"; qg Brace [qi "a"; qp "="; qp ">"; qi "b"; qi "c"; qp "="; qp ">"; qi "d"]]; [qp "-"; qp "-"; qi "a"]; [qi "return"; qp "&"; qi "a"]; [qi "while"; qi "let"; qi "x"; qg Brace []];
    [qi "for"; qi "x"; qi "y"; qg Brace []]; [qi "await"];
    [qi "a"; qg Bracket []]; [qp "|"; qi "x"; qp "|"]; [qp "|"; qi "x"; qp ","; qi "y"; qp "|"; qg Brace []]; [qp "|"; qi "x"; qp "|"; qi "a"; qp "+"; qi "b"];
    [qg Brace [qi "let"; qi "x"; qp "="; qg Brace []; qi "else"; qg Brace []; qp ";"]]; [qi "match"; qi "x"; qg Brace [qi "n"; qi "if"; qp "="; qp ">"; qi "y"]]; [qg Brace [qi "let"; qp "="; qi "y"; qp ";"]];
    [qi "a"; qp ":"; qp ":"]; [qp ":"; qp ":"; qi "a"]; [qi "Self"]; [qi "a"; qp ":"; qp ":"; qi "if"]; [qi "a"; qp ":"; qi "b"];
    [qi "a"; qp "."; qi "m"; qp ":"; qp ":"; qp "<"; qi "T"; qg Parenth []]; [qi "a"; qp "."; qi "m"; qp ":"; qp ":"; qp "<"; qi "T"; qp ">"]; [qi "a"; qp "."; qi "m"; qp ":"; qp ":"; qg Parenth []];
    [qi "a"; qp "."; qi "m"; qp ":"; qp ":"; qp "<"; qi "T"; qp ">"; qp ">"; qg Parenth []]; [qi "a"; qp "."; TLit (LOther "0") call_site; qg Parenth []]; [qi "a"; qp "."; TLit (LOther "1e2") call_site];
    [qi "a"; qp "."; qs "x"]; [qi "a"; qp "."; qi "m"; qp ":"; qp ":"; qp "<"; qi "fn"; qg Parenth []; qp "-"; qp ">"; qi "T"; qp ">"; qg Parenth []]] = repeat None 36.
Proof. vm_compute. reflexivity. Qed.
(** [if a { } (b)] and [if a { } & b] are two statements, [a && b] has one operator, and in a [match] nothing need follow a block *)
Example C52_ex_read :
  rust_parse [qg Brace [qi "if"; qi "a"; qg Brace []; qg Parenth [qi "b"]]] =
    Some (EBlock [] [] call_site [SExpr (EIf [] [qi "if"] (x_name "a") call_site [] [] None) None; SExpr (EParen [] call_site (x_name "b")) None]) /\
  rust_parse [qg Brace [qi "if"; qi "a"; qg Brace []; qp "&"; qi "b"]] =
    Some (EBlock [] [] call_site [SExpr (EIf [] [qi "if"] (x_name "a") call_site [] [] None) None; SExpr (EReference [] [qp "&"] (x_name "b")) None]) /\
  rust_parse [qi "a"; qp "&"; qp "&"; qi "b"] = Some (EBinary [] (x_name "a") [qp "&"; qp "&"] (x_name "b")) /\
  rust_parse [qi "match"; qi "x"; qg Brace [qi "_"; qp "="; qp ">"; qg Brace []; qi "y"; qp "="; qp ">"; qi "return"]] =
    Some (EMatch [] [qi "match"] (x_name "x") call_site [an_arm [qi "_"] [] None call_site call_site (EBlock [] [] call_site []) []; an_arm [qi "y"] [] None call_site call_site (EReturn [] call_site None) []]).
Proof. vm_compute. repeat split. Qed.
