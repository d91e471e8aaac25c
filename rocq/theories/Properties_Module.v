(** Property C63: modules, impl blocks and traits of the small part of Rust are expanded, with all their functions and constants, and each function does what it did.

    ModuleSpec.v says what these items are ([small_item]) and which functions they have ([functions]); the methods and attributes are those of property C61.  *)
From Coq Require Import String Ascii Bool Arith Lia List.
From Verif Require Import Base Tokens Method MethodSpec MethodProofs Paths Context Flavor Attrs Syntax Render Walker RootAttr RenderSpec AttrSpec AttrProofs SiteSpec ProgSpec WalkSpec NodeSpec FlavorSpec FlavorStoreProofs PresetSpec PresetTableProofs GrammarSpec PresetShapeProofs MeaningSpec MeaningProofs RunSpec RunProofs SmallRust SmallRustProofs ClosedProofs SimpleSpec SimpleProofs SimpleWalkProofs ModuleSpec ModuleProofs WalkExamples Properties_Attrs Properties_Meaning Properties_Closed Properties_Simple.
From Verif Require Properties_Print FlavorNameProofs.
Import ListNotations.
Open Scope string_scope.
Open Scope list_scope.
Open Scope monad_scope.

Lemma walks_items E (fit : (string -> Prop) -> bool -> Method.method -> Prop) K f it : ev_parse E = rust_parse ->
  (forall (P Q : string -> Prop) o m, (forall x, P x -> Q x) -> fit P o m -> fit Q o m) -> (forall c, fits fit (has c) (cx_method c) -> renders (ev_str E) K c) ->
  own_method fit f -> settled fit f (ev_attr E) it -> source it -> small_item it ->
  exists out, expands E f it out /\ output K itoks item_subs item_actual (made_of readable_body readable_value) out.
Proof.
  intros HE Hm Hr Hf Hs So Hi.
  pose proof (settled_nodes E fit f it Hm Hs) as Hn.
  destruct (item_walks E (can_read fit f (ev_attr E)) (ok fit f (ev_attr E)) K HE) with (x := it) (fr := @nil frame) (c := ctx_new f) (cnt := counter0) as (out & cnt & H & W); auto.
  - intros k. exists []. split; constructor.
  - intros k a0 c0 cnt R0 O. exact (ok_handle fit f (ev_attr E) Hm E k a0 c0 cnt eq_refl R0 O).
  - intros k c0 O. exact (Hr c0 (proj2 O)).
  - apply ok_new; assumption.
  - exists out. split; [exists cnt; exact H|]. exact (item_output K _ _ W).
Qed.

Lemma same_functions E f it out : expands E f it out -> source it -> map fst (functions (item_actual out)) = map fst (functions it).
Proof.
  intros Hx So. assert (A : item_alike (fun _ _ => True) it (item_actual out)).
  { apply (C51 (fun _ => True) _ E f it out Hx So).
    - repeat split; auto.
    - split; [|intros e _]; apply Forall_forall; auto.
    - intros h o r _. exact Logic.I. }
  apply alike_functions in A. induction A as [|x y l l' (Hn & _) _ IH]; [reflexivity|]. cbn. congruence.
Qed.
Theorem C63 E f it : ev_parse E = rust_parse -> own_method simple_method f -> settled simple_method f (ev_attr E) it -> source it -> small_item it ->
  exists out, expands E f it out /\ itoks out = itoks (item_actual out) /\ made_of readable_body readable_value (item_actual out) /\ map fst (functions (item_actual out)) = map fst (functions it).
Proof.
  intros HE Hf Hs So Hi. destruct (walks_items E simple_method (fun _ _ _ => True) f it HE) as (out & Hx & T & S & P); try assumption.
  - exact simple_mono.
  - intros c H. apply fits_top in H. destruct H as [o H]. exact (simple_renders (ev_str E) (fun _ _ _ => True) c o (fun _ _ _ => Logic.I) H).
  - exists out. split; [exact Hx|]. split; [symmetry; exact T|]. split; [exact P|]. exact (same_functions E f it out Hx So).
Qed.
Print Assumptions C63.
Theorem C63_stacked E f it : ev_parse E = rust_parse -> own_method stacked_method f -> settled stacked_method f (ev_attr E) it -> source it -> small_item it ->
  exists out, expands E f it out /\ itoks out = itoks (item_actual out) /\ made_of readable_body readable_value (item_actual out) /\ map fst (functions (item_actual out)) = map fst (functions it).
Proof.
  intros HE Hf Hs So Hi. destruct (walks_items E stacked_method (fun _ _ _ => True) f it HE) as (out & Hx & T & S & P); try assumption.
  - exact stacked_mono.
  - intros c H. exact (stacked_renders (ev_str E) (fun _ _ _ => True) c (fun _ _ _ => Logic.I) H).
  - exists out. split; [exact Hx|]. split; [symmetry; exact T|]. split; [exact P|]. exact (same_functions E f it out Hx So).
Qed.
Print Assumptions C63_stacked.

(** * What the functions do *)
Definition runs_as (same : nat -> library -> list stmt -> list stmt -> Prop) (x y : sig * list stmt) : Prop := fst x = fst y /\ forall n lib, same n lib (snd x) (snd y).
Lemma two_impl {A B} (P Q : A -> B -> Prop) l l' : (forall x y, P x y -> Q x y) -> Forall2 P l l' -> Forall2 Q l l'.
Proof. induction 2; constructor; auto. Qed.
Lemma items_upto st E f it out ms : forgets st -> incl ms passing -> (forall m, In m ms -> m = "inspect_err" \/ ctx_free st) -> expands E f it out -> source it -> calls_only ms out ->
  Forall2 (runs_as (fun n lib b b' => blind st lib -> forall w, same_upto st (run_fn n lib b w) (run_fn n lib b' w))) (functions it) (functions (item_actual out)).
Proof.
  intros Hst Hm Hf H Hs Hi.
  assert (A : forall n lib, blind st lib -> Forall2 (fn_alike (runs_like st n lib)) (functions it) (functions (item_actual out))).
  { intros n lib Hl. apply alike_functions, (C51 (fun _ => True) (runs_like st n lib) E f _ out H Hs (runs_congruence st Hst n lib Hl)).
    - split; [|intros e _]; apply Forall_forall; auto.
    - exact (calls_observe st Hst n lib Hl ms out Hm Hf Hi). }
  assert (A0 : Forall2 (fn_alike (fun _ _ => True)) (functions it) (functions (item_actual out))).
  { apply alike_functions, (C51 (fun _ => True) _ E f it out H Hs); [repeat split; auto|split; [|intros e _]; apply Forall_forall; auto|intros h o r _; exact Logic.I]. }
  clear - A A0 Hst. induction A0 as [|x y l l' (Hn & _) _ IH]; constructor.
  - split; [exact Hn|]. intros n lib Hl w. specialize (A n lib Hl). inversion A as [|? ? ? ? (_ & S & P) _]; subst.
    exact (run_alike st Hst n lib [] [] (fst x) call_site (snd x) [] [] (fst x) call_site (snd y) (conj (f_equal (IFn [] [] (fst x) call_site) S) P) w w (agree_refl st w)).
  - apply IH. intros n lib Hl. specialize (A n lib Hl). inversion A; assumption.
Qed.
(** this is so for any item that is expanded, small or not, whose hooks inspect errors: each of its functions does what it did *)
Theorem C63_functions E f it out : expands E f it out -> source it -> inspecting out ->
  Forall2 (runs_as (fun n lib b b' => forall w, same_run (run_fn n lib b w) (run_fn n lib b' w))) (functions it) (functions (item_actual out)).
Proof.
  intros H Hs Hi. eapply two_impl; [|apply (items_upto exactly E f it out ["inspect_err"] forgets_exactly)]; try assumption.
  - intros x y [Hn R]. split; [exact Hn|]. intros n lib w. apply same_exactly, R, blind_exactly.
  - intros m [<-|[]]. left. reflexivity.
  - intros m [<-|[]]. left. reflexivity.
  - intros h o r Hin. destruct (Hi h o r Hin) as (Hc & sp1 & sp2 & sp3 & g & -> & Hg). split; [exact Hc|]. exists "inspect_err", sp1, sp2, sp3, g. split; [left; reflexivity|auto].
Qed.
Print Assumptions C63_functions.
(** and up to contexts if they put contexts around errors *)
Theorem C63_functions_context E f it out : expands E f it out -> source it -> calls_only passing out ->
  Forall2 (runs_as (fun n lib b b' => blind strip lib -> forall w, same_upto strip (run_fn n lib b w) (run_fn n lib b' w))) (functions it) (functions (item_actual out)).
Proof. intros H Hs Hi. apply (items_upto strip E f it out passing forgets_strip (incl_refl _)); try assumption. intros m _. right. exact strip_free. Qed.
Print Assumptions C63_functions_context.

Lemma items_observed E ms f it : ev_parse E = rust_parse -> Forall word ms -> own_method (observers ms) f -> settled (observers ms) f (ev_attr E) it -> source it -> small_item it ->
  exists out, expands E f it out /\ calls_only ms out.
Proof.
  intros HE Hw Hf Hs So Hb. destruct (walks_items E (observers ms) (one_call ms) f it HE) as (out & Hx & _ & S & _); try assumption.
  - exact (observers_mono ms).
  - intros c H. apply observers_render; assumption.
  - exists out. split; [exact Hx|]. intros h o r Hin. destruct (hooks_one_call ms h o r (proj1 (Forall_forall _ _) S _ Hin)) as (Hc & m & s1 & s2 & s3 & g & I & R & Cl).
    split; [exact Hc|]. exists m, s1, s2, s3, g. split; [exact I|]. split; [exact R|]. destruct g; try contradiction. exact Logic.I.
Qed.
Theorem C63_run E f it : ev_parse E = rust_parse -> own_method (observers ["inspect_err"]) f -> settled (observers ["inspect_err"]) f (ev_attr E) it -> source it -> small_item it ->
  exists out, expands E f it out /\ Forall2 (runs_as (fun n lib b b' => forall w, same_run (run_fn n lib b w) (run_fn n lib b' w))) (functions it) (functions (item_actual out)).
Proof.
  intros HE Hf Hs So Hb. destruct (items_observed E ["inspect_err"] f it HE) as (out & Hx & Hc); try assumption; [repeat constructor; a_word|].
  exists out. split; [exact Hx|]. apply (C63_functions E f it out Hx So). intros h o r Hin. destruct (Hc h o r Hin) as (Hn & m & sp1 & sp2 & sp3 & g & [<-|[]] & Hr & Ho). split; [exact Hn|]. exists sp1, sp2, sp3, g. auto.
Qed.
Print Assumptions C63_run.
Theorem C63_run_context E f it : ev_parse E = rust_parse -> own_method (observers passing) f -> settled (observers passing) f (ev_attr E) it -> source it -> small_item it ->
  exists out, expands E f it out /\
    Forall2 (runs_as (fun n lib b b' => blind strip lib -> forall w, same_upto strip (run_fn n lib b w) (run_fn n lib b' w))) (functions it) (functions (item_actual out)).
Proof.
  intros HE Hf Hs So Hb. destruct (items_observed E passing f it HE) as (out & Hx & Hc); try assumption; [repeat constructor; a_word|].
  exists out. split; [exact Hx|]. exact (C63_functions_context E f it out Hx So Hc).
Qed.
Print Assumptions C63_run_context.

(** * The presets, without hooq attributes *)
Theorem C63_presets E ft p g it : ev_parse E = rust_parse -> at_path (preset_flavors ft) p g -> p <> ["empty"] ->
  (forall n, In n (item_nodes [] it) -> node_events (ev_attr E) (n_attrs n) []) -> source it -> small_item it ->
  exists out, expands E (f_core g) it out /\ itoks out = itoks (item_actual out) /\ made_of readable_body readable_value (item_actual out) /\
    (preset_call p = "inspect_err" -> Forall2 (runs_as (fun n lib b b' => forall w, same_run (run_fn n lib b w) (run_fn n lib b' w))) (functions it) (functions (item_actual out))) /\
    (p <> ["hook"] -> Forall2 (runs_as (fun n lib b b' => blind strip lib -> forall w, same_upto strip (run_fn n lib b w) (run_fn n lib b' w))) (functions it) (functions (item_actual out))).
Proof.
  intros HE Hg Hp Hn So Hi. destruct (C61_presets ft p g Hg Hp) as (O1 & O2 & _).
  assert (S : forall fit, settled fit (f_core g) (ev_attr E) it).
  { intros fit n Hin. pose proof (Hn n Hin) as V. destruct (read_here n); [exists []; split; [exact V|constructor]|]. clear - V. remember [] as es. induction V; [reflexivity|discriminate|]. unfold foreign. cbn [filter]. rewrite H. cbn [negb]. f_equal. apply IHV, Heqes. }
  destruct (C63 E (f_core g) it HE O2 (S _) So Hi) as (out & Hx & T & P & _). exists out. split; [exact Hx|]. split; [exact T|]. split; [exact P|].
  assert (D : forall o2, expands E (f_core g) it o2 -> o2 = out) by (intros o2 [k H2]; destruct Hx as [k1 H1]; congruence).
  split.
  - intros C. rewrite C in O1. destruct (C63_run E (f_core g) it HE O1 (S _) So Hi) as (o2 & H2 & R). rewrite (D _ H2) in R. exact R.
  - intros N. assert (O3 : own_method (observers passing) (f_core g)) by (destruct O1 as (nm & [<-|[]] & O1); exists (preset_call p); split; [exact (preset_passes p N)|exact O1]).
    destruct (C63_run_context E (f_core g) it HE O3 (S _) So Hi) as (o2 & H2 & R). rewrite (D _ H2) in R. exact R.
Qed.
Print Assumptions C63_presets.

(** * A concrete case *)
(** #[hooq::result_types("Result", "Res")]
    mod m {
      use a::b;
      const N: u8 = limit();
      #[hooq::flavor = fl] impl T {
        #[inline] fn a() -> Result { let x = g()?; f(x) }
        #[hooq::skip_all] fn b() -> Result { c()?; d() }
      }
      trait S {
        fn later() -> Result;
        fn e() -> Result { #[hooq::flavor = fl2] e()? }
      }
      mod inner { fn h() { h()?; } }
    } *)
Definition xz_mod (fl fl2 : string) : item :=
  IMod [xy_top] [qi "mod"; qi "m"] call_site
    [IOther [] [qi "use"; qi "a"; qp ":"; qp ":"; qi "b"; qp ";"];
     IConst [] [qi "const"; qi "N"; qp ":"; qi "u8"; qp "="] (x_call "limit" []) [qp ";"];
     IImpl [xy_flavor fl] [qi "impl"; qi "T"] call_site
       [IIFn [xa_word ["inline"]] [] (x_sig "a" (RetPath (xa_path ["Result"]))) call_site [x_let [] "x" (x_try (x_call "g" [])); tail (x_call "f" [x_name "x"])];
        IIFn [skip_all_] [] (x_sig "b" (RetPath (xa_path ["Result"]))) call_site [semi (x_try (x_call "c" [])); tail (x_call "d" [])]];
     ITrait [] [qi "trait"; qi "S"] call_site
       [TIOther [] [qi "fn"; qi "later"; qg Parenth []; qp ";"];
        TIFn [] (x_sig "e" (RetPath (xa_path ["Result"]))) call_site [tail (x_try_a [xy_flavor fl2] (x_call "e" []))]];
     IMod [] [qi "mod"; qi "inner"] call_site [x_fn [] "h" RetNone [semi (x_try (x_call "h" []))]]].
Lemma xz_small fl fl2 : small_item (xz_mod fl fl2).
Proof.
  apply mo_mod. repeat (apply Forall_cons || apply Forall_nil).
  - constructor.
  - apply mo_const. unfold small_value. cbn. in_fragment.
  - apply mo_impl. repeat (apply Forall_cons || apply Forall_nil); apply io_fn; (apply a_body; [in_fragment|reflexivity]).
  - apply mo_trait. repeat (apply Forall_cons || apply Forall_nil); [apply to_other|]. apply to_fn. apply a_body; [in_fragment|reflexivity].
  - apply mo_mod. repeat (apply Forall_cons || apply Forall_nil). apply mo_fn. apply a_body; [in_fragment|reflexivity].
Qed.
Ltac z_nodes := unfold xz_mod, x_fn, x_let, x_try, x_call, semi, tail, x_call_a, x_try_a, x_block, x_name, xa_path; cbn [item_nodes impl_nodes trait_nodes stmt_nodes nodes last_map flat_map map app here opt_list leaf_place andb]; unfold here; cbn [leaf_place];
  repeat (apply Forall_cons; [unfold node_meets, read_here; cbn [n_place n_frames n_attrs place_eqb existsb is_dead andb negb orb]; try reflexivity; try y_read|]); try apply Forall_nil.
Lemma xz_settled (fit : (string -> Prop) -> bool -> Method.method -> Prop) base fl fl2 : (forall n, n_attrs n = [xy_flavor fl] -> node_can fit base (ev_attr xy_env) n) -> (forall n, n_attrs n = [xy_flavor fl2] -> node_can fit base (ev_attr xy_env) n) -> settled fit base (ev_attr xy_env) (xz_mod fl fl2).
Proof. intros H1 H2. apply settled_fine. z_nodes; [apply H1|apply H2]; reflexivity. Qed.
Lemma xz_flavor (fit : (string -> Prop) -> bool -> Method.method -> Prop) base n g : (forall (P Q : string -> Prop) o m, (forall x, P x -> Q x) -> fit P o m -> fit Q o m) -> In n ["anyhow"; "log"; "tracing"] -> get_flavor (preset_flavors xp_ft) [n] = Ok g -> own_method fit (f_core g) -> forall nd, n_attrs nd = [xy_flavor n] -> node_can fit base (ev_attr xy_env) nd.
Proof.
  intros Hm In_ G O nd A. eapply xy_named; [exact Hm|reflexivity|exact A| |exact G|exact O]. refine (nf_path (xa_path [_]) _). apply Forall_cons; [|apply Forall_nil]. cbn [In] in In_. destruct In_ as [<-|[<-|[<-|[]]]]; (split; [reflexivity|discriminate]).
Qed.
Lemma xz_preset n g : get_flavor (preset_flavors xp_ft) [n] = Ok g -> n <> "empty" -> forall ms, In (preset_call [n]) ms -> own_method (observers ms) (f_core g) /\ own_method simple_method (f_core g).
Proof.
  intros H N ms I. destruct (C61_presets xp_ft [n] g) as [(nm & [<-|[]] & O) [S _]]; [apply FlavorNameProofs.get_flavor_ok, H|congruence|]. split; [|exact S]. exists (preset_call [n]). auto.
Qed.
Lemma xz_can base n ms : In n ["anyhow"; "log"; "tracing"] -> In (preset_call [n]) ms -> forall nd, n_attrs nd = [xy_flavor n] -> node_can (observers ms) base (ev_attr xy_env) nd /\ node_can simple_method base (ev_attr xy_env) nd.
Proof.
  intros H I nd A. assert (G : exists g, get_flavor (preset_flavors xp_ft) [n] = Ok g /\ n <> "empty") by (cbn [In] in H; destruct H as [<-|[<-|[<-|[]]]]; (eexists; split; [reflexivity|discriminate])).
  destruct G as (g & G & N). destruct (xz_preset n g G N ms I) as [O S]. split; eapply xz_flavor; try eassumption; [exact (observers_mono ms)|exact simple_mono].
Qed.
Example C63_ex_hypotheses :
  own_method simple_method xy_base /\ settled simple_method xy_base (ev_attr xy_env) (xz_mod "anyhow" "log") /\
  own_method (observers ["inspect_err"]) xy_base /\ settled (observers ["inspect_err"]) xy_base (ev_attr xy_env) (xz_mod "log" "tracing") /\
  own_method (observers passing) xy_base /\ settled (observers passing) xy_base (ev_attr xy_env) (xz_mod "anyhow" "log") /\
  source (xz_mod "anyhow" "log") /\ source (xz_mod "log" "tracing") /\ small_item (xz_mod "anyhow" "log") /\ small_item (xz_mod "log" "tracing").
Proof.
  assert (D : forall ms, In "inspect_err" ms -> own_method (observers ms) xy_base /\ own_method simple_method xy_base) by (intros ms I; exact (xz_preset "default" (default_flavor xp_ft) eq_refl ltac:(discriminate) ms I)).
  assert (A : In "with_context" passing) by (cbn; tauto). assert (P : In "inspect_err" passing) by (cbn; tauto). assert (O : In "inspect_err" ["inspect_err"]) by (left; reflexivity).
  split; [exact (proj2 (D _ P))|]. split.
  { apply xz_settled; intros nd N; refine (proj2 (xz_can xy_base _ passing _ _ nd N)); first [exact A|exact P|cbn; tauto]. }
  split; [exact (proj1 (D _ O))|]. split.
  { apply xz_settled; intros nd N; refine (proj1 (xz_can xy_base _ _ _ _ nd N)); first [exact O|cbn; tauto]. }
  split; [exact (proj1 (D _ P))|]. split.
  { apply xz_settled; intros nd N; refine (proj1 (xz_can xy_base _ _ _ _ nd N)); first [exact A|exact P|cbn; tauto]. }
  repeat split; apply xz_small.
Qed.
Definition xz_out (fl fl2 : string) : item := item_actual (out_of xy_env xy_base (xz_mod fl fl2)).
(** the flavor of the impl block is used in [a], not in [b], which is skipped; the function without a result is hooked at [?] only *)
Example C63_ex_text : Properties_Print.text (flat_map xs_short (itoks (xz_out "anyhow" "log"))) =
  "mod m { use a : : b ; const N : u8 = limit ( ) ; impl T { # [ inline ] fn a ( ) { let x = g ( ) . with_context ( CLOSURE ) ? ; f ( x ) . with_context ( CLOSURE ) } fn b ( ) { c ( ) ? ; d ( ) } } trait S { fn later ( ) ; fn e ( ) { e ( ) . inspect_err ( CLOSURE ) ? . inspect_err ( CLOSURE ) } } mod inner { fn h ( ) { h ( ) . inspect_err ( CLOSURE ) ? ; } } } ".
Proof. vm_compute. reflexivity. Qed.
(** a method on top of the one of the trait, which is on top of that of the module:
    mod m { #[hooq::method(.note("x").$so_far)] trait S { fn e() -> Result { #[hooq::method(.$so_far.more()!)] e()?; h() } } } *)
Definition xt_mod : item :=
  IMod [] [qi "mod"; qi "m"] call_site
    [ITrait [method_ ([qp "."; qi "note"; qg Parenth [qs "x"]; qp "."] ++ x_dollar "so_far")] [qi "trait"; qi "S"] call_site
       [TIFn [] (x_sig "e" (RetPath (xa_path ["Result"]))) call_site
          [semi (x_try_a [method_ (qp "." :: x_dollar "so_far" ++ [qp "."; qi "more"; qg Parenth []; qp "!"])] (x_call "e" [])); tail (x_call "h" [])]]].
Example C63_ex_stacked : own_method stacked_method xy_base /\ settled stacked_method xy_base (ev_attr xw_env) xt_mod /\ source xt_mod /\ small_item xt_mod /\
  Properties_Print.text (flat_map xs_short (itoks (out_of xw_env xy_base xt_mod))) =
  "mod m { trait S { fn e ( ) { e ( ) . note ( 'x' ) . inspect_err ( CLOSURE ) . more ( ) ; h ( ) . note ( 'x' ) . inspect_err ( CLOSURE ) } } } ".
Proof.
  split; [apply (C61_presets xp_ft ["default"]); [apply FlavorNameProofs.get_flavor_ok; reflexivity|discriminate]|]. split; [|split; [reflexivity|split; [|vm_compute; reflexivity]]].
  - apply settled_fine. unfold xt_mod. z_nodes.
    + eapply reads_method; [reflexivity|]. apply sc_more; [a_word|apply sg_last; constructor|]. apply sc_so_far; [reflexivity|cbn; tauto].
    + eapply reads_method; [reflexivity|]. apply sc_so_far_more; [reflexivity|cbn; tauto|]. apply sc_last; [a_word|]. constructor.
  - apply mo_mod. repeat (apply Forall_cons || apply Forall_nil). apply mo_trait. repeat (apply Forall_cons || apply Forall_nil). apply to_fn. apply a_body; [in_fragment|reflexivity].
Qed.
Definition xz_runs (lib : library) (it : item) := map (fun x => (sg_name (fst x), xr_see lib (snd x))) (functions it).
(** every function is run with a library in which [g], [c], [e] and [h] fail *)
Definition xz_lib : library := fun _ f _ => match f with VName x => (if in_dec string_dec x ["g"; "c"; "e"; "h"] then VErr (VName "bad") else VOk (VName x), []) | _ => (VUnit, []) end.
Example C63_ex_run : xz_runs xz_lib (xz_mod "log" "tracing") =
    [("a", (Go (VErr (VName "bad")), [VName "g"], [])); ("b", (Go (VErr (VName "bad")), [VName "c"], [])); ("e", (Go (VErr (VName "bad")), [VName "e"], [])); ("h", (Go (VErr (VName "bad")), [VName "h"], []))] /\
  xz_runs xz_lib (xz_out "log" "tracing") =
    [("a", (Go (VErr (VName "bad")), [VName "g"], [VName "bad"])); ("b", (Go (VErr (VName "bad")), [VName "c"], [])); ("e", (Go (VErr (VName "bad")), [VName "e"], [VName "bad"])); ("h", (Go (VErr (VName "bad")), [VName "h"], [VName "bad"]))] /\
  xz_runs (blindfold xz_lib) (xz_out "anyhow" "log") =
    [("a", (Go (VErr (VCtx (VName "bad"))), [VName "g"], [])); ("b", (Go (VErr (VName "bad")), [VName "c"], [])); ("e", (Go (VErr (VName "bad")), [VName "e"], [VName "bad"])); ("h", (Go (VErr (VName "bad")), [VName "h"], [VName "bad"]))].
Proof. vm_compute. repeat split. Qed.
