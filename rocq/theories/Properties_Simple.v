(** Property C61: on the small part of Rust a function with hooq attributes is expanded, whatever the attributes set, if their methods can be called on every expression.

    SimpleSpec.v says which methods these are ([simple_method]: calls on the expression, or the expression and calls of functions with calls after them; [stacked_method]: calls among which there may be [$so_far]) and what is asked of the attributes ([settled]): where an attribute is read it can be read, and a method or flavor it sets is such a method;
    where attributes are not read there are none of hooq's.  Skips, targets, bindings, counters, other flavors and methods may change from node to node as they like.
    A method may use the variables of the flavor at the root and those bound by the attributes of its node and of all that encloses it ([vars_at]).  *)
From Coq Require Import String Ascii Bool Arith Lia List.
From Verif Require Import Base Tokens Method MethodSpec MethodProofs Paths Context Flavor Attrs Syntax Render Walker RootAttr RenderSpec AttrSpec AttrProofs SiteSpec ProgSpec WalkSpec NodeSpec FlavorSpec FlavorStoreProofs PresetSpec PresetTableProofs GrammarSpec PresetShapeProofs MeaningSpec MeaningProofs RunSpec SmallRust SmallRustProofs ClosedProofs SimpleSpec SimpleProofs SimpleWalkProofs WalkExamples Properties_Attrs Properties_Meaning Properties_Closed.
From Verif Require FlavorNameProofs.
Import ListNotations.
Open Scope string_scope.
Open Scope list_scope.
Open Scope monad_scope.

Lemma settled_nodes E (fit : (string -> Prop) -> bool -> Method.method -> Prop) f it : (forall (P Q : string -> Prop) o m, (forall x, P x -> Q x) -> fit P o m -> fit Q o m) ->
  settled fit f (ev_attr E) it -> Forall (node_fine (can_read fit f (ev_attr E))) (item_nodes [] it).
Proof. intros Hm Hs. apply Forall_forall. intros n Hin. specialize (Hs n Hin). unfold node_fine. destruct (read_here n); [|exact Hs]. apply node_read; assumption. Qed.
Lemma walks_settled E (fit : (string -> Prop) -> bool -> Method.method -> Prop) K f a vis s sp b : ev_parse E = rust_parse ->
  (forall (P Q : string -> Prop) o m, (forall x, P x -> Q x) -> fit P o m -> fit Q o m) -> (forall c, fits fit (has c) (cx_method c) -> renders (ev_str E) K c) ->
  own_method fit f -> settled fit f (ev_attr E) (IFn a vis s sp b) -> source (IFn a vis s sp b) -> body false (map stmt_bare b) ->
  exists b', expands E f (IFn a vis s sp b) (IFn (foreign a) vis s sp b') /\ SimpleWalkProofs.gblock K b'.
Proof.
  intros HE Hm Hr Hf Hs So [Hb Hbt].
  assert (Hn : Forall (node_fine (can_read fit f (ev_attr E))) (item_nodes [] (IFn a vis s sp b))) by exact (settled_nodes E fit f _ Hm Hs).
  cbn [item_nodes] in Hn. apply Forall_cons_iff in Hn. destruct Hn as [Ha Hn]. apply fine_live in Ha. destruct Ha as [Ha _]. specialize (Ha eq_refl).
  assert (R : block_ready (can_read fit f (ev_attr E)) (push a []) b).
  { destruct (all_see (can_read fit f (ev_attr E))) as (_ & _ & _ & _ & _ & _ & _ & _ & Hsee). destruct (Hsee _ Hb b _ eq_refl So Hn) as [L _]. exact (L eq_refl). }
  destruct (ok_handle fit f (ev_attr E) Hm E [] a (ctx_new f) counter0 eq_refl Ha (ok_new fit f (ev_attr E) Hm Hf)) as (sk & c & Hh & Oc).
  assert (W : SimpleWalkProofs.block_walks E (can_read fit f (ev_attr E)) (ok fit f (ev_attr E)) K (map stmt_bare b)).
  { apply (SimpleWalkProofs.all_walk E (can_read fit f (ev_attr E)) (ok fit f (ev_attr E)) K); auto.
    - intros k. exists []. split; constructor.
    - intros k a0 c0 cnt R0 O. exact (ok_handle fit f (ev_attr E) Hm E k a0 c0 cnt eq_refl R0 O).
    - intros k c0 O. exact (Hr c0 (proj2 O)). }
  destruct (W b _ FnBlockTail (for_sub_scope (update_fn_info c (FnInfo s))) counter0 0 eq_refl R eq_refl) as (b' & cnt & Hb' & G).
  { exact Oc. }
  { intros _. exact Hbt. }
  exists b'. split; [|exact G]. exists cnt. cbn [walk_item]. rewrite (bind_ok _ _ _ _ _ Hh). cbn beta iota zeta. erewrite bind_ok; [|exact Hb']. reflexivity.
Qed.

(** what is said of the expansion *)
Definition expands_whole E f a vis s sp b : Prop :=
  exists out b', expands E f (IFn a vis s sp b) out /\ item_actual out = IFn (foreign a) vis s sp b' /\ itoks out = itoks (IFn (foreign a) vis s sp b') /\
    block true b' /\ rust_parse [TGroup Brace (flat_map stoks b') sp] = Some (EBlock [] [] sp b').
Lemma whole_of E K f a vis s sp b b' : expands E f (IFn a vis s sp b) (IFn (foreign a) vis s sp b') -> SimpleWalkProofs.gblock K b' -> expands_whole E f a vis s sp b.
Proof.
  intros Hx [P S]. exists (IFn (foreign a) vis s sp b'), (map stmt_actual b'). split; [exact Hx|]. split; [reflexivity|]. split; [|split; [exact P|]].
  - cbn [itoks]. rewrite (proj1 (SimpleWalkProofs.good_block _ _ S)). reflexivity.
  - apply parse_iff. split; [apply f_oper, o_un, u_post, p_block, P|reflexivity].
Qed.
Theorem C61 E f a vis s sp b : ev_parse E = rust_parse -> own_method simple_method f -> settled simple_method f (ev_attr E) (IFn a vis s sp b) ->
  source (IFn a vis s sp b) -> body false (map stmt_bare b) ->
  exists out b', expands E f (IFn a vis s sp b) out /\ item_actual out = IFn (foreign a) vis s sp b' /\ itoks out = itoks (IFn (foreign a) vis s sp b') /\
    block true b' /\ rust_parse [TGroup Brace (flat_map stoks b') sp] = Some (EBlock [] [] sp b').
Proof.
  intros HE Hf Hs So Hb. destruct (walks_settled E simple_method (fun _ _ _ => True) f a vis s sp b HE) as (b' & Hx & G); try assumption.
  - exact simple_mono.
  - intros c H. apply fits_top in H. destruct H as [o H]. exact (simple_renders (ev_str E) (fun _ _ _ => True) c o (fun _ _ _ => Logic.I) H).
  - eapply whole_of; eassumption.
Qed.
Print Assumptions C61.
(** and where methods repeat those they override *)
Theorem C61_stacked E f a vis s sp b : ev_parse E = rust_parse -> own_method stacked_method f -> settled stacked_method f (ev_attr E) (IFn a vis s sp b) ->
  source (IFn a vis s sp b) -> body false (map stmt_bare b) ->
  exists out b', expands E f (IFn a vis s sp b) out /\ item_actual out = IFn (foreign a) vis s sp b' /\ itoks out = itoks (IFn (foreign a) vis s sp b') /\
    block true b' /\ rust_parse [TGroup Brace (flat_map stoks b') sp] = Some (EBlock [] [] sp b').
Proof.
  intros HE Hf Hs So Hb. destruct (walks_settled E stacked_method (fun _ _ _ => True) f a vis s sp b HE) as (b' & Hx & G); try assumption.
  - exact stacked_mono.
  - intros c H. exact (stacked_renders (ev_str E) (fun _ _ _ => True) c (fun _ _ _ => Logic.I) H).
  - eapply whole_of; eassumption.
Qed.
Print Assumptions C61_stacked.

(** * What it does *)
Definition observers (ms : list string) (v : string -> Prop) : bool -> Method.method -> Prop := observer_of v ms.
Lemma observers_mono ms (P Q : string -> Prop) o m : (forall x, P x -> Q x) -> observers ms P o m -> observers ms Q o m.
Proof. intros H (nm & I & O). exists nm. split; [exact I|exact (observing_mono P Q nm m H O)]. Qed.
Lemma observers_render E ms c : Forall word ms -> fits (observers ms) (has c) (cx_method c) -> renders (ev_str E) (one_call ms) c.
Proof. intros Hw H. apply fits_top in H. destruct H as [o H]. exact (observing_renders ms (ev_str E) c o Hw H). Qed.
Lemma hooks_one_call ms h o r : SimpleWalkProofs.hook_ok (one_call ms) (EHook h o r) ->
  h_consumed h = None /\ exists m sp1 sp2 sp3 f, In m ms /\ r = EMethodCall [] (actual o) [TPunct "." sp1; TIdent m sp2] sp3 [f] [] /\ is_closure f.
Proof.
  intros (exc & Hc & -> & w & g & -> & I & A & C & Cl). split; [apply Hc; reflexivity|]. exists (wc_name w), (wc_dot w), (wc_at w), (wc_sp w), g. split; [exact I|]. unfold on_call. rewrite A, C. split; [reflexivity|exact Cl].
Qed.
Lemma walks_observers E ms f a vis s sp b : ev_parse E = rust_parse -> Forall word ms -> own_method (observers ms) f -> settled (observers ms) f (ev_attr E) (IFn a vis s sp b) ->
  source (IFn a vis s sp b) -> body false (map stmt_bare b) -> exists b', expands E f (IFn a vis s sp b) (IFn (foreign a) vis s sp b') /\ calls_only ms (IFn (foreign a) vis s sp b').
Proof.
  intros HE Hw Hf Hs So Hb. destruct (walks_settled E (observers ms) (one_call ms) f a vis s sp b HE) as (b' & Hx & P & S); try assumption.
  - exact (observers_mono ms).
  - intros c H. apply observers_render; assumption.
  - exists b'. split; [exact Hx|]. intros h o r Hin. destruct (hooks_one_call ms h o r (proj1 (Forall_forall _ _) (proj2 (SimpleWalkProofs.good_block _ _ S)) _ Hin)) as (Hc & m & s1 & s2 & s3 & g & I & R & Cl).
    split; [exact Hc|]. exists m, s1, s2, s3, g. split; [exact I|]. split; [exact R|]. destruct g; try contradiction. exact Logic.I.
Qed.

(** under methods that inspect errors the function does what it did; the attributes of the source mean nothing to [run_fn] *)
Theorem C61_run E f a vis s sp b : ev_parse E = rust_parse -> own_method (observers ["inspect_err"]) f -> settled (observers ["inspect_err"]) f (ev_attr E) (IFn a vis s sp b) ->
  source (IFn a vis s sp b) -> body false (map stmt_bare b) ->
  exists out b', expands E f (IFn a vis s sp b) out /\ item_actual out = IFn (foreign a) vis s sp b' /\ forall n lib w, same_run (run_fn n lib b w) (run_fn n lib b' w).
Proof.
  intros HE Hf Hs So Hb. destruct (walks_observers E ["inspect_err"] f a vis s sp b HE) as (b' & Hx & Hc); try assumption; [repeat constructor; a_word|].
  exists (IFn (foreign a) vis s sp b'), (map stmt_actual b'). split; [exact Hx|]. split; [reflexivity|]. intros n lib w.
  destruct (C51_run n lib E f a vis s sp b _ w Hx So) as (a2 & b2 & H1 & H2).
  - intros h o r Hin. destruct (Hc h o r Hin) as (Hn & m & sp1 & sp2 & sp3 & g & [<-|[]] & Hr & Ho). split; [exact Hn|]. exists sp1, sp2, sp3, g. auto.
  - cbn [item_actual] in H1. injection H1 as _ <-. exact H2.
Qed.
Print Assumptions C61_run.
(** and under methods that also put contexts around errors, up to contexts *)
Theorem C61_run_context E f a vis s sp b : ev_parse E = rust_parse -> own_method (observers passing) f -> settled (observers passing) f (ev_attr E) (IFn a vis s sp b) ->
  source (IFn a vis s sp b) -> body false (map stmt_bare b) ->
  exists out b', expands E f (IFn a vis s sp b) out /\ item_actual out = IFn (foreign a) vis s sp b' /\ forall n lib w, blind strip lib -> same_upto strip (run_fn n lib b w) (run_fn n lib b' w).
Proof.
  intros HE Hf Hs So Hb. destruct (walks_observers E passing f a vis s sp b HE) as (b' & Hx & Hc); try assumption; [repeat constructor; a_word|].
  exists (IFn (foreign a) vis s sp b'), (map stmt_actual b'). split; [exact Hx|]. split; [reflexivity|]. intros n lib w Hl.
  destruct (C51_run_context n lib E f a vis s sp b _ w Hl Hx So Hc) as (a2 & b2 & H1 & H2). cbn [item_actual] in H1. injection H1 as _ <-. exact H2.
Qed.
Print Assumptions C61_run_context.

(** * The presets *)
(** the method of a preset is a call with one closure, which needs no other bindings than those of the preset; so presets may be set at the root and at any node *)
Ltac an_own := solve [left; cbn; tauto | right; split; cbn; [tauto|intuition discriminate]].
Ltac a_known := solve [an_own | left; an_own].
Ltac a_filled := repeat first [apply fi_nil | apply fi_var; [a_known|] | apply fi_ident | apply fi_lit | apply fi_punct; [discriminate|] | apply fi_group].
Theorem C61_presets ft p g : at_path (preset_flavors ft) p g -> p <> ["empty"] ->
  own_method (observers [preset_call p]) (f_core g) /\ own_method simple_method (f_core g) /\ own_method stacked_method (f_core g).
Proof.
  intros Hg Hp. assert (O : observing (own_vars (f_core g)) (preset_call p) (fl_method (f_core g))).
  { apply preset_in in Hg. destruct ft as [cq fl fa fe ft crate]. cbn [ft_log ft_anyhow ft_eyre ft_tracing] in *. cases Hg; try congruence; destruct cq; (do 4 eexists; split; [reflexivity|]).
    all: try (left; do 4 eexists; split; [reflexivity|]; match goal with |- filled _ ?l => idtac end).
    all: try (right; do 6 eexists; split; [reflexivity|]; split; [a_word|]).
    all: unfold preset_prefix, let_expr, helpers_path; cbn [ft_crate]; try destruct (String.eqb crate "hooq_macros").
    all: match goal with |- filled ?K ?l => let l' := eval lazy in l in change (filled K l') end; a_filled. }
  split; [exists (preset_call p); split; [left; reflexivity|exact O]|]. destruct O as (dot & a & b & t & M & H). unfold own_method. rewrite M. cbn [simple_method stacked_method].
  assert (S : simple_calls (own_vars (f_core g)) false [TIdent (preset_call p) a; TGroup Parenth t b]); [|split; exact S]. apply sc_last; [apply call_word|]. apply sg_last.
  destruct H as [(p1 & q & l & r & -> & F)|(p1 & x & s & q & l & r & -> & W & F)]; constructor; assumption.
Qed.
Print Assumptions C61_presets.
(** that of [empty] is the expression *)
Theorem C61_empty ft g : at_path (preset_flavors ft) ["empty"] g -> own_method simple_method (f_core g).
Proof. intros Hg. remember ["empty"] as p eqn:Hp. apply preset_in in Hg. destruct ft as [cq fl fa fe ft crate]. cbn [ft_log ft_anyhow ft_eyre ft_tracing] in *. cases Hg; try discriminate. destruct cq; apply sw_expr. Qed.
Print Assumptions C61_empty.

(** * A concrete case *)
(** the presets can be named; the root has the flavor [log], whose binding [level] is used in a method *)
Definition xy_env : env := mk_env (mk_attr_env false (fun l => bindR (get_flavor (preset_flavors xp_ft) l) (fun g => Ok (f_core g))) (fun _ => None)) rust_parse (fun _ => "text").
Definition xy_core : fcore := f_core (log_flavor xp_ft).
Definition xy_flavor (n : string) : attr := xa_set "flavor" (VPath (xa_path [n])).
Definition xy_note : attr := method_ [qp "."; qi "note"; qg Parenth [qs "x"; qp ","; qp "$"; qi "line"]; qp "."; qi "map_err"; qg Parenth [qp "|"; qi "e"; qp "|"; qg Brace [qi "wrap"; qg Parenth [qi "e"; qp ","; qp "$"; qi "level"]]]].
(** #[inline] #[hooq::result_types("Result", "Res")]
    fn main() -> Result {
      #[hooq::method(.note("x", $line).map_err(|e| { wrap(e, $level) }))] let x = f(g()?)?;
      #[hooq::skip_all] { c()?; d()?; }
      #[hooq::flavor = anyhow] { if d()? { #[hooq::hook_targets("?")] return Err(e()?); } }
      let y = #[hooq::k = v] x.m(#[hooq::skip] a()?, b()?)?;
      #[hooq::flavor = tracing] h(y)
    } *)
Definition xy_main (top note : attr) (fl fl2 : string) : item :=
  x_fn [xa_word ["inline"]; top] "main" (RetPath (xa_path ["Result"]))
    [x_let [note] "x" (x_try (x_call "f" [x_try (x_call "g" [])]));
     semi (x_block [skip_all_] [semi (x_try (x_call "c" [])); semi (x_try (x_call "d" []))]);
     semi (x_block [xy_flavor fl] [SExpr (EIf [] [qi "if"] (x_try (x_call "d" [])) call_site [semi (EReturn [xa_list "hook_targets" ["?"]] call_site (Some (x_call "Err" [x_try (x_call "e" [])])))] [] None) None]);
     x_let [] "y" (x_try_a [xa_set "k" (VOther [qi "v"])] (EMethodCall [] (x_name "x") [qp "."; qi "m"] call_site [x_try_a [skip_] (x_call "a" []); x_try (x_call "b" [])] [qp ","]));
     tail (x_call_a [xy_flavor fl2] "h" [x_name "y"])].
Definition xy_body (it : item) : list stmt := match it with IFn _ _ _ _ b => b | _ => [] end.
Definition xy_top : attr := xa_list "result_types" ["Result"; "Res"].
Definition node_can (fit : (string -> Prop) -> bool -> Method.method -> Prop) base env (n : node) : Prop := exists es, node_events env (n_attrs n) es /\ Forall (allowed fit (vars_at base env n)) es.
Definition node_meets (fit : (string -> Prop) -> bool -> Method.method -> Prop) base env (n : node) : Prop := if read_here n then node_can fit base env n else foreign (n_attrs n) = n_attrs n.
Lemma xy_plain fit base env n : n_attrs n = [] -> node_can fit base env n.
Proof. intros H. exists []. rewrite H. split; constructor. Qed.
(** a flavor whose method needs only its own bindings *)
Lemma own_allowed (fit : (string -> Prop) -> bool -> Method.method -> Prop) base env n g es : (forall (P Q : string -> Prop) o m, (forall x, P x -> Q x) -> fit P o m -> fit Q o m) ->
  own_method fit g -> node_events env (n_attrs n) es -> In (EvFlavor g) es -> allowed fit (vars_at base env n) (EvFlavor g).
Proof.
  intros Hm O H I. unfold own_method in O. cbn [allowed]. eapply Hm; [|exact O]. intros x [V|[B N]]; [left; left; exact V|]. right. exists (n_attrs n). split; [left; reflexivity|]. exists es. split; [exact H|]. split; [|exact N].
  apply in_map_iff in B. destruct B as (y & E & B). apply in_map_iff. exists y. split; [exact E|]. apply in_flat_map. exists (EvFlavor g). auto.
Qed.
Definition names_presets (env : attr_env) : Prop := ae_flavor env = fun l => bindR (get_flavor (preset_flavors xp_ft) l) (fun g => Ok (f_core g)).
Lemma xy_named (fit : (string -> Prop) -> bool -> Method.method -> Prop) base env n nm g : (forall (P Q : string -> Prop) o m, (forall x, P x -> Q x) -> fit P o m -> fit Q o m) -> names_presets env -> n_attrs n = [xy_flavor nm] ->
  names_flavor (VPath (xa_path [nm])) [nm] -> get_flavor (preset_flavors xp_ft) [nm] = Ok g -> own_method fit (f_core g) -> node_can fit base env n.
Proof.
  intros Hm HE A N G O. assert (H : node_events env (n_attrs n) [EvFlavor (f_core g)]).
  { rewrite A. eapply ne_hooq; [reflexivity| |constructor]. left. eapply mn_from_flavor; [t_plain|]. exists [nm]. split; [exact N|]. rewrite HE, G. reflexivity. }
  exists [EvFlavor (f_core g)]. split; [exact H|]. constructor; [|constructor]. eapply own_allowed; [exact Hm|exact O|exact H|left; reflexivity].
Qed.
Lemma reads_method (fit : (string -> Prop) -> bool -> Method.method -> Prop) base env n ts : n_attrs n = [method_ ts] -> fit (vars_at base env n) true (parse_method (ae_consume env) ts) -> node_can fit base env n.
Proof. intros A H. exists [EvMethod (parse_method (ae_consume env) ts)]. rewrite A. split; [eapply ne_hooq; [reflexivity|left; eapply mn_method; [t_plain|apply parse_method_ok]|constructor]|]. constructor; [exact H|constructor]. Qed.
Ltac y_read := solve [apply xy_plain; reflexivity | eexists; split; [cbn [n_attrs]; t_events|repeat constructor]].
(** proves [settled] for such a function *)
Ltac y_nodes := unfold xy_main, x_fn, x_let, x_try, x_call, semi, tail, x_call_a, x_try_a, x_block, x_name, xa_path; cbn [item_nodes stmt_nodes nodes last_map flat_map map app here opt_list leaf_place andb]; unfold here; cbn [leaf_place];
  repeat (apply Forall_cons; [unfold node_meets, read_here; cbn [n_place n_frames n_attrs place_eqb existsb is_dead andb negb orb]; try reflexivity; try y_read|]); try apply Forall_nil.
Lemma settled_fine fit base E it : Forall (node_meets fit base (ev_attr E)) (item_nodes [] it) -> settled fit base (ev_attr E) it.
Proof. intros H n Hn. exact (proj1 (Forall_forall _ _) H n Hn). Qed.
Example C61_ex_hypotheses : own_method simple_method xy_core /\ settled simple_method xy_core (ev_attr xy_env) (xy_main xy_top xy_note "anyhow" "tracing") /\
  source (xy_main xy_top xy_note "anyhow" "tracing") /\ body false (map stmt_bare (xy_body (xy_main xy_top xy_note "anyhow" "tracing"))).
Proof.
  assert (P : forall n g, get_flavor (preset_flavors xp_ft) [n] = Ok g -> n <> "empty" -> own_method simple_method (f_core g)) by (intros n g H N; apply (C61_presets xp_ft [n] g); [apply FlavorNameProofs.get_flavor_ok, H|congruence]).
  split; [apply (P "log"); [reflexivity|discriminate]|]. split; [|split; [reflexivity|apply a_body; [in_fragment|reflexivity]]].
  apply settled_fine. y_nodes.
  - eapply reads_method; [reflexivity|].
    apply sc_more; [a_word|apply (sg_more _ [_]); [constructor|apply sg_last; constructor; cbn; tauto]|]. apply sc_last; [a_word|]. apply sg_last. constructor; [a_word|]. a_filled.
  - eapply xy_named; [exact simple_mono|reflexivity|reflexivity|apply (nf_path (xa_path ["anyhow"])); repeat constructor; discriminate|reflexivity|]. apply (P "anyhow"); [reflexivity|discriminate].
  - eapply xy_named; [exact simple_mono|reflexivity|reflexivity|apply (nf_path (xa_path ["tracing"])); repeat constructor; discriminate|reflexivity|]. apply (P "tracing"); [reflexivity|discriminate].
Qed.
Definition xy_out (f : fcore) (it : item) : list stmt := xy_body (item_actual (out_of xy_env f it)).
Example C61_ex_text : Properties_Print.text (flat_map xs_short (flat_map stoks (xy_out xy_core (xy_main xy_top xy_note "anyhow" "tracing")))) =
  "let x = f ( g ( ) . note ( 'x' , N ) . map_err ( CLOSURE ) ? ) . note ( 'x' , N ) . map_err ( CLOSURE ) ? ; { c ( ) ? ; d ( ) ? ; } ; { if d ( ) . with_context ( CLOSURE ) ? { return Err ( e ( ) . with_context ( CLOSURE ) ? ) ; } } ; let y = x . m ( a ( ) ? , b ( ) . inspect_err ( CLOSURE ) ? ) . inspect_err ( CLOSURE ) ? ; h ( y ) . inspect_err ( CLOSURE ) ".
Proof. vm_compute. reflexivity. Qed.
(** the same function with [.inspect_err(|e| { log(e, $line) })] for the method and flavors that inspect errors, and with one that adds a context *)
Definition xy_insp : attr := method_ [qp "."; qi "inspect_err"; qg Parenth [qp "|"; qi "e"; qp "|"; qg Brace [qi "log"; qg Parenth [qi "e"; qp ","; qp "$"; qi "line"]]]].
Definition xy_base : fcore := f_core (default_flavor xp_ft).
Lemma xy_observed ms fl fl2 : In "inspect_err" ms -> Forall (fun n => In n ["anyhow"; "log"; "tracing"] /\ In (preset_call [n]) ms) [fl; fl2] ->
  own_method (observers ms) xy_base /\ settled (observers ms) xy_base (ev_attr xy_env) (xy_main xy_top xy_insp fl fl2) /\
  source (xy_main xy_top xy_insp fl fl2) /\ body false (map stmt_bare (xy_body (xy_main xy_top xy_insp fl fl2))).
Proof.
  intros Hi Hn.
  assert (P : forall n g, get_flavor (preset_flavors xp_ft) [n] = Ok g -> n <> "empty" -> In (preset_call [n]) ms -> own_method (observers ms) (f_core g)).
  { intros n g H N I. destruct (C61_presets xp_ft [n] g) as [(nm & [<-|[]] & O) _]; [apply FlavorNameProofs.get_flavor_ok, H|congruence|]. exists (preset_call [n]). auto. }
  assert (R : forall n, In n ["anyhow"; "log"; "tracing"] /\ In (preset_call [n]) ms -> forall nd, n_attrs nd = [xy_flavor n] -> node_can (observers ms) xy_base (ev_attr xy_env) nd).
  { intros n [In_ I] nd A. cbn [In] in In_. destruct In_ as [<-|[<-|[<-|[]]]]; (eapply xy_named; [exact (observers_mono ms)|reflexivity|exact A|refine (nf_path (xa_path [_]) _); apply Forall_cons; [split; [reflexivity|discriminate]|apply Forall_nil]|reflexivity|]; match type of I with In (preset_call [?n]) _ => apply (P n) end; [reflexivity|discriminate|exact I]). }
  inversion Hn as [|? ? H1 Hn2]; subst. inversion Hn2 as [|? ? H2 _]; subst.
  split; [apply (P "default"); [reflexivity|discriminate|exact Hi]|]. split; [|split; [reflexivity|apply a_body; [in_fragment|reflexivity]]].
  apply settled_fine. y_nodes; [|apply (R _ H1); reflexivity|apply (R _ H2); reflexivity].
  eapply reads_method; [reflexivity|]. exists "inspect_err". split; [exact Hi|].
  do 4 eexists. split; [reflexivity|]. right. do 6 eexists. split; [reflexivity|]. split; [a_word|]. a_filled.
Qed.
(** [bad] fails, [d] says yes or no, the others succeed *)
Definition xy_lib (bad d0 : string) : library := fun _ f _ => match f with VName x => (if String.eqb x bad then VErr (VName "bad") else if String.eqb x "d" then VOk (VName d0) else VOk (VName x), []) | _ => (VUnit, []) end.
Example C61_ex_run :
  (own_method (observers ["inspect_err"]) xy_base /\ settled (observers ["inspect_err"]) xy_base (ev_attr xy_env) (xy_main xy_top xy_insp "log" "tracing") /\
   source (xy_main xy_top xy_insp "log" "tracing") /\ body false (map stmt_bare (xy_body (xy_main xy_top xy_insp "log" "tracing")))) /\
  map (fun bad => xr_see (xy_lib bad "true") (xy_body (xy_main xy_top xy_insp "log" "tracing"))) ["g"; "c"; "e"] =
    [(Go (VErr (VName "bad")), map VName ["g"], []); (Go (VErr (VName "bad")), map VName ["g"; "f"; "c"], []); (Go (VErr (VName "bad")), map VName ["g"; "f"; "c"; "d"; "d"; "e"], [])] /\
  (* seen at [g]; not at [c], where all is skipped; at [e] *)
  map (fun bad => xr_see (xy_lib bad "true") (xy_out xy_base (xy_main xy_top xy_insp "log" "tracing"))) ["g"; "c"; "e"] =
    [(Go (VErr (VName "bad")), map VName ["g"], [VName "bad"]); (Go (VErr (VName "bad")), map VName ["g"; "f"; "c"], []); (Go (VErr (VName "bad")), map VName ["g"; "f"; "c"; "d"; "d"; "e"], [VName "bad"])] /\
  (* [a] is skipped, [h] is hooked by the flavor at the tail *)
  map (fun bad => xr_see (xy_lib bad "false") (xy_out xy_base (xy_main xy_top xy_insp "log" "tracing"))) ["a"; "h"; ""] =
    [(Go (VErr (VName "bad")), map VName ["g"; "f"; "c"; "d"; "d"; "a"], []); (Go (VErr (VName "bad")), map VName ["g"; "f"; "c"; "d"; "d"; "a"; "b"; "m"; "h"], [VName "bad"]);
     (Go (VOk (VName "h")), map VName ["g"; "f"; "c"; "d"; "d"; "a"; "b"; "m"; "h"], [])].
Proof. split; [apply xy_observed; [left; reflexivity|repeat constructor; cbn; tauto]|]. vm_compute. repeat split. Qed.
Example C61_ex_run_context :
  (own_method (observers passing) xy_base /\ settled (observers passing) xy_base (ev_attr xy_env) (xy_main xy_top xy_insp "anyhow" "tracing") /\
   source (xy_main xy_top xy_insp "anyhow" "tracing") /\ body false (map stmt_bare (xy_body (xy_main xy_top xy_insp "anyhow" "tracing")))) /\
  xr_see (blindfold (xy_lib "e" "true")) (xy_out xy_base (xy_main xy_top xy_insp "anyhow" "tracing")) = (Go (VErr (VCtx (VName "bad"))), map VName ["g"; "f"; "c"; "d"; "d"; "e"], []).
Proof. split; [apply xy_observed; [left; reflexivity|repeat constructor; cbn; tauto]|]. vm_compute. reflexivity. Qed.
(** Methods that take the place of the expression and of the [?]:
    #[hooq::method(wrap($expr, $line)!)]
    fn main() -> Result {
      let x = f(g()?)?;
      #[hooq::method(.note("x")!)] h(x)?;
      #[hooq::method(first(|| { $expr }).note($expr))] { d(a()?); }
      #[hooq::flavor = empty] h(x)
    } *)
Definition xw_env : env := mk_env (mk_attr_env true (fun l => bindR (get_flavor (preset_flavors xp_ft) l) (fun g => Ok (f_core g))) (fun _ => None)) rust_parse (fun _ => "text").
Definition x_dollar (s : string) : list tt := [qp "$"; qi s].
Definition xw_main : item :=
  x_fn [method_ [qi "wrap"; qg Parenth (x_dollar "expr" ++ qp "," :: x_dollar "line"); qp "!"]] "main" (RetPath (xa_path ["Result"]))
    [x_let [] "x" (x_try (x_call "f" [x_try (x_call "g" [])]));
     semi (x_try_a [method_ [qp "."; qi "note"; qg Parenth [qs "x"]; qp "!"]] (x_call "h" [x_name "x"]));
     semi (x_block [method_ [qi "first"; qg Parenth [qp "|"; qp "|"; qg Brace (x_dollar "expr")]; qp "."; qi "note"; qg Parenth (x_dollar "expr")]] [semi (x_call "d" [x_try (x_call "a" [])])]);
     tail (x_call_a [xy_flavor "empty"] "h" [x_name "x"])].
Example C61_ex_replace : own_method simple_method xy_core /\ settled simple_method xy_core (ev_attr xw_env) xw_main /\ source xw_main /\ body false (map stmt_bare (xy_body xw_main)) /\
  Properties_Print.text (flat_map xs_short (flat_map stoks (xy_body (item_actual (out_of xw_env xy_core xw_main))))) =
  "let x = wrap ( f ( wrap ( g ( ) , N ) ) , N ) ; h ( x ) . note ( 'x' ) ; { d ( first ( CLOSURE ) . note ( a ( ) ) ? ) ; } ; h ( x ) ".
Proof.
  split; [apply (C61_presets xp_ft ["log"]); [apply FlavorNameProofs.get_flavor_ok; reflexivity|discriminate]|]. split; [|split; [reflexivity|split; [apply a_body; [in_fragment|reflexivity]|vm_compute; reflexivity]]].
  apply settled_fine. unfold xw_main. y_nodes.
  - eapply reads_method; [reflexivity|]. apply sw_call; [a_word|]. apply (sg_more _ [_; _]); [apply sa_expr|]. apply sg_last. constructor. cbn; tauto.
  - eapply reads_method; [reflexivity|]. apply sc_last; [a_word|]. apply sg_last. constructor.
  - eapply reads_method; [reflexivity|]. apply (sw_more _ [_; _]); [apply sw_call; [a_word|]; apply sg_last; constructor; a_filled|]. apply sc_last; [a_word|]. apply sg_last, sa_expr.
  - eapply xy_named; [exact simple_mono|reflexivity|reflexivity|apply (nf_path (xa_path ["empty"])); repeat constructor; discriminate|reflexivity|]. apply (C61_empty xp_ft), FlavorNameProofs.get_flavor_ok. reflexivity.
Qed.
(** Paths in the function and in the methods:
    #[hooq::method(crate::wrap($expr, Level::Info)!)]
    fn main() -> Result {
      let x = io::read(Path::new("x"))?;
      #[hooq::method(.note(Level::Warn))] Self::check(x)?;
      Ok(x)
    } *)
Definition xq_hop (y : string) : hop := mk_hop call_site call_site y call_site.
Definition xq_path (x : string) (l : list string) : list tt := TIdent x call_site :: flat_map hop_toks (map xq_hop l).
Definition xq_call (x : string) (l : list string) (es : list expr) : expr := ECall [] (far x call_site (map xq_hop l)) call_site es [].
Definition xq_main : item :=
  x_fn [method_ (xq_path "crate" ["wrap"] ++ [qg Parenth (x_dollar "expr" ++ qp "," :: xq_path "Level" ["Info"]); qp "!"])] "main" (RetPath (xa_path ["Result"]))
    [x_let [] "x" (x_try (xq_call "io" ["read"] [xq_call "Path" ["new"] [ELit [] (LStr "x") call_site]]));
     semi (x_try_a [method_ [qp "."; qi "note"; qg Parenth (xq_path "Level" ["Warn"])]] (xq_call "Self" ["check"] [x_name "x"]));
     tail (x_call "Ok" [x_name "x"])].
Example C61_ex_paths : own_method simple_method xy_core /\ settled simple_method xy_core (ev_attr xw_env) xq_main /\ source xq_main /\ body false (map stmt_bare (xy_body xq_main)) /\
  Properties_Print.text (flat_map xs_short (flat_map stoks (xy_body (item_actual (out_of xw_env xy_core xq_main))))) =
  "let x = crate : : wrap ( io : : read ( Path : : new ( 'x' ) ) , Level : : Info ) ; Self : : check ( x ) . note ( Level : : Warn ) ? ; Ok ( x ) ".
Proof.
  split; [apply (C61_presets xp_ft ["log"]); [apply FlavorNameProofs.get_flavor_ok; reflexivity|discriminate]|]. split; [|split; [reflexivity|split; [apply a_body; [in_fragment|reflexivity]|vm_compute; reflexivity]]].
  apply settled_fine. unfold xq_main. y_nodes.
  - eapply reads_method; [reflexivity|]. apply (sw_call_path _ "crate" _ (xq_hop "wrap") []); [right; simpl; tauto|repeat constructor; a_word|]. apply (sg_more _ [_; _]); [apply sa_expr|]. apply sg_last.
    apply (sa_path _ "Level" _ (xq_hop "Info") []); [left; a_word|repeat constructor; a_word].
  - eapply reads_method; [reflexivity|]. apply sc_last; [a_word|]. apply sg_last. apply (sa_path _ "Level" _ (xq_hop "Warn") []); [left; a_word|repeat constructor; a_word].
Qed.
(** Methods on top of others:
    #[hooq::method(.note("x").$so_far)]
    fn main() -> Result {
      #[hooq::method(.$sofar.more($line)!)] let x = f(g()?)?;
      #[hooq::flavor = anyhow] { #[hooq::method(.$so_far.$so_far)] h(x)?; }
      h(x)
    } *)
Definition xv_main : item :=
  x_fn [method_ ([qp "."; qi "note"; qg Parenth [qs "x"]; qp "."] ++ x_dollar "so_far")] "main" (RetPath (xa_path ["Result"]))
    [x_let [method_ (qp "." :: x_dollar "sofar" ++ [qp "."; qi "more"; qg Parenth (x_dollar "line"); qp "!"])] "x" (x_try (x_call "f" [x_try (x_call "g" [])]));
     semi (x_block [xy_flavor "anyhow"] [semi (x_try_a [method_ (qp "." :: x_dollar "so_far" ++ qp "." :: x_dollar "so_far")] (x_call "h" [x_name "x"]))]);
     tail (x_call "h" [x_name "x"])].
Example C61_ex_stacked : own_method stacked_method xy_core /\ settled stacked_method xy_core (ev_attr xw_env) xv_main /\ source xv_main /\ body false (map stmt_bare (xy_body xv_main)) /\
  Properties_Print.text (flat_map xs_short (flat_map stoks (xy_body (item_actual (out_of xw_env xy_core xv_main))))) =
  "let x = f ( g ( ) . note ( 'x' ) . inspect_err ( CLOSURE ) . more ( N ) ) . note ( 'x' ) . inspect_err ( CLOSURE ) . more ( N ) ; { h ( x ) . with_context ( CLOSURE ) . with_context ( CLOSURE ) ? ; } ; h ( x ) . note ( 'x' ) . inspect_err ( CLOSURE ) ".
Proof.
  split; [apply (C61_presets xp_ft ["log"]); [apply FlavorNameProofs.get_flavor_ok; reflexivity|discriminate]|]. split; [|split; [reflexivity|split; [apply a_body; [in_fragment|reflexivity]|vm_compute; reflexivity]]].
  apply settled_fine. unfold xv_main. y_nodes.
  - eapply reads_method; [reflexivity|]. apply sc_more; [a_word|apply sg_last; constructor|]. apply sc_so_far; [reflexivity|cbn; tauto].
  - eapply reads_method; [reflexivity|]. apply sc_so_far_more; [reflexivity|cbn; tauto|]. apply sc_last; [a_word|]. apply sg_last. constructor. cbn; tauto.
  - eapply xy_named; [exact stacked_mono|reflexivity|reflexivity|apply (nf_path (xa_path ["anyhow"])); repeat constructor; discriminate|reflexivity|]. apply (C61_presets xp_ft ["anyhow"]); [apply FlavorNameProofs.get_flavor_ok; reflexivity|discriminate].
Qed.
(** Attributes in a [let] with [else], in a guard and in a closure:
    fn main() -> Result {
      let Some(y) = #[hooq::skip] find(v[pos()?])? else { #[hooq::skip] return Err(e); };
      let w: u8;
      match y { n if #[hooq::flavor = anyhow] check(n)? => n, _ => break get()?, };
      list.map(|a| #[hooq::flavor = anyhow] Err(a))
    } *)
Definition xf_main : item :=
  x_fn [] "main" (RetPath (xa_path ["Result"]))
    [SLocalInit [] (qi "let" :: [qi "Some"; qg Parenth [qi "y"]] ++ [qp "="]) (x_try_a [skip_] (x_call "find" [EIndex [] (x_name "v") call_site (x_try (x_call "pos" []))])) [qi "else"]
       (Some (EBlock [] [] call_site [semi (EReturn [skip_] call_site (Some (x_call "Err" [x_name "e"])))])) [qp ";"];
     SLocal [] (qi "let" :: [qi "w"; qp ":"; qi "u8"]) [qp ";"];
     semi (EMatch [] [qi "match"] (x_name "y") call_site
       [an_arm [qi "n"] [qi "if"] (Some (x_try_a [xy_flavor "anyhow"] (x_call "check" [x_name "n"]))) call_site call_site (x_name "n") [qp ","];
        an_arm [qi "_"] [] None call_site call_site (EBreak [] [qi "break"] (Some (x_try (x_call "get" [])))) [qp ","]]);
     tail (EMethodCall [] (x_name "list") [qp "."; qi "map"] call_site [EClosure [] (qp "|" :: [qi "a"] ++ [qp "|"]) RetNone (x_call_a [xy_flavor "anyhow"] "Err" [x_name "a"])] [])].
Example C61_ex_more : own_method simple_method xy_core /\ settled simple_method xy_core (ev_attr xw_env) xf_main /\ source xf_main /\ body false (map stmt_bare (xy_body xf_main)) /\
  Properties_Print.text (flat_map xu_short (flat_map stoks (xy_body (item_actual (out_of xw_env xy_core xf_main))))) =
  "let Some ( y ) = find ( v [ pos ( ) ? ] ) ? else { return Err ( e ) ; } ; let w : u8 ; match y { n if check ( n ) . with_context ( CLOSURE ) ? = > n , _ = > break get ( ) . inspect_err ( CLOSURE ) ? , } ; list . map ( | a | Err ( a ) . with_context ( CLOSURE ) ) . inspect_err ( CLOSURE ) ".
Proof.
  split; [apply (C61_presets xp_ft ["log"]); [apply FlavorNameProofs.get_flavor_ok; reflexivity|discriminate]|]. split; [|split; [reflexivity|split; [apply a_body; [in_fragment|reflexivity]|vm_compute; reflexivity]]].
  assert (A : forall n, n_attrs n = [xy_flavor "anyhow"] -> node_can simple_method xy_core (ev_attr xw_env) n).
  { intros n H. eapply xy_named; [exact simple_mono|reflexivity|exact H|apply (nf_path (xa_path ["anyhow"])); repeat constructor; discriminate|reflexivity|]. apply (C61_presets xp_ft ["anyhow"]); [apply FlavorNameProofs.get_flavor_ok; reflexivity|discriminate]. }
  apply settled_fine. unfold xf_main, an_arm. y_nodes; cbn [arm_nodes opt_list nodes app]; apply A; reflexivity.
Qed.
(** A method with variables bound by its own node, by the function and by the flavor at the root:
    #[hooq::who = me]
    fn main() -> Result {
      #[hooq::what = it] #[hooq::method(.note(|| { $who; $what; $level }))] f(g()?)?;
      h(x)
    } *)
Definition xb_method : list tt := [qp "."; qi "note"; qg Parenth [qp "|"; qp "|"; qg Brace (x_dollar "who" ++ qp ";" :: x_dollar "what" ++ qp ";" :: x_dollar "level")]].
Definition xb_main (a : list attr) : item :=
  x_fn a "main" (RetPath (xa_path ["Result"]))
    [semi (x_try_a [xa_set "what" (VOther [qi "it"]); method_ xb_method] (x_call "f" [x_try (x_call "g" [])])); tail (x_call "h" [x_name "x"])].
Definition xb_who : attr := xa_set "who" (VOther [qi "me"]).
Example C61_ex_bindings : own_method simple_method xy_core /\ settled simple_method xy_core (ev_attr xy_env) (xb_main [xb_who]) /\ source (xb_main [xb_who]) /\ body false (map stmt_bare (xy_body (xb_main [xb_who]))) /\
  Properties_Print.text (flat_map xs_short (flat_map stoks (xy_body (item_actual (out_of xy_env xy_core (xb_main [xb_who])))))) = "f ( g ( ) . note ( CLOSURE ) ? ) . note ( CLOSURE ) ? ; h ( x ) . inspect_err ( CLOSURE ) ".
Proof.
  split; [apply (C61_presets xp_ft ["log"]); [apply FlavorNameProofs.get_flavor_ok; reflexivity|discriminate]|]. split; [|split; [reflexivity|split; [apply a_body; [in_fragment|reflexivity]|vm_compute; reflexivity]]].
  apply settled_fine. unfold xb_main. y_nodes.
  assert (H : node_events (ev_attr xy_env) [xa_set "what" (VOther [qi "it"]); method_ xb_method] [EvBind [("what", [qi "it"])]; EvMethod (parse_method false xb_method)]).
  { eapply ne_hooq; [reflexivity|left; eapply mn_bind; [reflexivity|cbn; intuition discriminate]|]. eapply ne_hooq; [reflexivity|left; eapply mn_method; [t_plain|apply parse_method_ok]|constructor]. }
  eexists. split; [exact H|]. constructor; [exact Logic.I|]. constructor; [|constructor]. apply sc_last; [a_word|]. apply sg_last. constructor. a_filled.
  - apply fi_var.
    { right. exists [xb_who]. split; [right; cbn; tauto|]. eexists. split; [t_events|]. split; [left; reflexivity|cbn; intuition discriminate]. }
    apply fi_punct; [discriminate|]. apply fi_var.
    { right. eexists. split; [left; reflexivity|]. eexists. split; [exact H|]. split; [left; reflexivity|cbn; intuition discriminate]. }
    a_filled.
Qed.
(** without the attribute at the function there is an error *)
Theorem C61_unbound_refuted : exists E f a vis s sp b, ev_parse E = rust_parse /\ own_method simple_method f /\ source (IFn a vis s sp b) /\ body false (map stmt_bare b) /\
  (forall n, In n (item_nodes [] (IFn a vis s sp b)) -> if read_here n then exists es, node_events (ev_attr E) (n_attrs n) es /\ Forall (allowed simple_method (fun _ => True)) es else foreign (n_attrs n) = n_attrs n) /\
  forall out, ~ expands E f (IFn a vis s sp b) out.
Proof.
  exists xy_env, xy_core, [], [], (x_sig "main" (RetPath (xa_path ["Result"]))), call_site, (xy_body (xb_main [])). split; [reflexivity|]. split; [apply (C61_presets xp_ft ["log"]); [apply FlavorNameProofs.get_flavor_ok; reflexivity|discriminate]|].
  split; [reflexivity|]. split; [apply a_body; [in_fragment|reflexivity]|]. split; [|intros out (cnt & H); vm_compute in H; discriminate H].
  assert (F : Forall (fun n => if read_here n then exists es, node_events (ev_attr xy_env) (n_attrs n) es /\ Forall (allowed simple_method (fun _ => True)) es else foreign (n_attrs n) = n_attrs n) (item_nodes [] (xb_main []))).
  { unfold xb_main, x_fn, x_let, x_try, x_call, semi, tail, x_call_a, x_try_a, x_block, x_name, xa_path; cbn [item_nodes stmt_nodes nodes last_map flat_map map app here opt_list leaf_place andb]; unfold here; cbn [leaf_place].
    repeat (apply Forall_cons; [unfold read_here; cbn [n_place n_frames n_attrs place_eqb existsb is_dead andb negb orb]; try reflexivity; try solve [exists []; split; constructor]|]); try apply Forall_nil.
    eexists. split; [eapply ne_hooq; [reflexivity|left; eapply mn_bind; [reflexivity|cbn; intuition discriminate]|]; eapply ne_hooq; [reflexivity|left; eapply mn_method; [t_plain|apply parse_method_ok]|constructor]|].
    constructor; [exact Logic.I|]. constructor; [|constructor]. apply sc_last; [a_word|]. apply sg_last. constructor. repeat first [apply fi_nil | apply fi_var; [exact Logic.I|] | apply fi_punct; [discriminate|]]. }
  intros n Hn. exact (proj1 (Forall_forall _ _) F n Hn).
Qed.
Print Assumptions C61_unbound_refuted.
(** At the root there is nothing so far.  *)
Theorem C61_so_far_refuted : exists E f, ev_parse E = rust_parse /\ stacked_method (own_vars f) true (fl_method f) /\ ~ own_method stacked_method f /\ exists b, body false b /\ forall out, ~ expands E f (x_fn [] "main" RetNone b) out.
Proof.
  exists xy_env, (core_with [] (Insert call_site (x_dollar "so_far") false) []). split; [reflexivity|]. split; [apply sc_so_far; [reflexivity|cbn; tauto]|]. split.
  - intros S. inversion S. discriminate.
  - exists [semi (x_try (x_call "f" []))]. split; [apply a_body; [in_fragment|reflexivity]|]. intros out (cnt & H). vm_compute in H. discriminate H.
Qed.
Print Assumptions C61_so_far_refuted.
(** What is asked of the methods cannot be dropped: with [.m(,)] there is an error.  *)
Theorem C61_any_method_refuted : exists E f, ev_parse E = rust_parse /\ ~ own_method simple_method f /\ exists b, body false b /\ forall out, ~ expands E f (x_fn [] "main" RetNone b) out.
Proof.
  exists xy_env, (core_with [] (Insert call_site [qi "m"; qg Parenth [qp ","]] false) []). split; [reflexivity|]. split.
  - intros S. inversion S as [m a ts b W A| | |]; subst. inversion A as [|t H|t a0 r H H2 E1]; subst.
    + inversion H.
    + destruct t as [|x t]; [inversion H|]. injection E1 as -> E1. inversion H.
  - exists [semi (x_try (x_call "f" []))]. split; [apply a_body; [in_fragment|reflexivity]|]. intros out (cnt & H). vm_compute in H. discriminate H.
Qed.
Print Assumptions C61_any_method_refuted.
