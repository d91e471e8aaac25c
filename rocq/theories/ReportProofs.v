(** Reading the closures of the presets.  *)
From Coq Require Import String Ascii Bool Arith Lia List.
From Verif Require Import Base Tokens Method Paths Context Flavor Render FlavorSpec PresetSpec PresetTableProofs ReportSpec.
Import ListNotations.
Open Scope string_scope.
Open Scope list_scope.

Lemma more_read l ts : more_toks l ts -> forall c s r, c <> ":"%char -> read_tail (ts ++ TPunct c s :: r) = (l, TPunct c s :: r).
Proof.
  intros H. induction H; intros c s r Hc.
  - cbn [app]. cbn [read_tail]. destruct c as [[] [] [] [] [] [] [] []]; try reflexivity. destruct Hc. reflexivity.
  - cbn [app read_tail]. rewrite (IHmore_toks c s r Hc). reflexivity.
Qed.
Lemma level_read e b l ts c s r : path_toks b l ts -> c = ";"%char \/ c = ","%char -> read_value e (ts ++ TPunct c s :: r) = Some (SPath b l, TPunct c s :: r).
Proof.
  intros H Hc. assert (N : c <> ":"%char) by (destruct Hc; subst; discriminate). destruct H; cbn [app read_value read_path].
  - cbn [read_tail]. rewrite (more_read _ _ H c s r N). destruct Hc; subst c; destruct l; reflexivity.
  - inversion H; subst. cbn [app read_tail]. match goal with M : more_toks l _ |- _ => rewrite (more_read _ _ M c s r N) end. destruct Hc; subst c; reflexivity.
Qed.
Lemma block_let k e w x q s1 s2 s3 s4 v r r' o : w = "let" -> read_value e r = Some (v, TPunct q s4 :: r') -> q = ";"%char -> read_block k ((x, v) :: e) r' = o ->
  read_block (S k) e (TIdent w s1 :: TIdent x s2 :: TPunct "=" s3 :: r) = o.
Proof. intros -> H -> <-. cbn [read_block]. rewrite H. reflexivity. Qed.

Lemma event_read k e s1 s2 s3 s4 s5 t e' s6 s7 s8 abs l lv s9 r fs : e' = "event" -> path_toks abs l lv -> read_fields (List.length r) e r = Some fs ->
  read_block k e [TPunct ":" s1; TPunct ":" s2; TIdent "tracing" t; TPunct ":" s3; TPunct ":" s4; TIdent e' s5; TPunct "!" s6; TGroup Parenth (lv ++ TPunct "," s9 :: r) s7; TPunct ";" s8] =
    Some (REvent (SPath abs l) fs).
Proof.
  intros -> Hl Hf. destruct k as [|k]; cbn [read_block read_value read_path read_tail]; unfold read_report; cbn [path_is Bool.eqb andb].
  all: rewrite (level_read e abs l lv "," s9 r Hl (or_intror eq_refl)), Hf; reflexivity.
Qed.
Lemma fval_field (fm : field Method.method) m : fval fm = m -> exists a, fm = Field m a.
Proof. destruct fm as [x a]. cbn. intros ->. eauto. Qed.

Lemma preset_reports ts_str ft p g c k n src ets q abs l : at_path (preset_flavors ft) p g -> p <> ["empty"] -> p <> ["hook"] ->
  fval (cx_method c) = fl_method (f_core g) -> (levelled p = true -> exists lv, get_binding c "level" = Some lv /\ path_toks abs l lv) ->
  exists call, render_toks ts_str c k n src ets q = Ok (ets ++ call) /\ reports (preset_call p) call (preset_report (ft_crate ft) p (SPath abs l) q src).
Proof.
  intros Hg Hp Hh Hm Hl. apply fval_field in Hm. destruct Hm as [anc Hm]. unfold render_toks. rewrite Hm. apply preset_in in Hg.
  destruct ft as [cq fl fa fe ft crate]; cbn [ft_crate] in *; cbn [ft_log ft_anyhow ft_eyre ft_tracing] in *.
  cases Hg; try congruence; clear Hp Hh;
    cbn [f_core default_flavor log_flavor tracing_flavor anyhow_flavor eyre_flavor color_eyre_flavor log_level tracing_level default_core core_with fl_method default_method ft_consume ft_crate];
    unfold default_method, default_method_toks, log_method_toks, tracing_method_toks, context_method_toks, preset_prefix, let_expr, helpers_path; cbn [ft_crate ft_consume];
    unfold preset_report, helper, excerpt_of, one_line_of, helper; clear Hm.
  all: try (destruct Hl as (lv & Hl & Hlv); [reflexivity|]).
  all: destruct cq; try destruct (String.eqb crate "hooq_macros").
  all: lazy beta iota zeta delta -[get_binding available_bindings hooq_meta get_fn_name get_fn_sig get_file_name count_str preset_call reports].
  all: try (rewrite Hl; lazy beta iota zeta delta -[get_file_name count_str preset_call reports]).
  all: eexists; (split; [reflexivity|]); do 4 eexists; (split; [reflexivity|]).
  all: try match goal with K : path_toks _ _ ?lv |- context [?f ?lv ?X] => change (f lv X) with (lv ++ X) end.
  all: cbn [read_closure].
  all: repeat (eapply block_let; [reflexivity|first [reflexivity|apply level_read; [eassumption|auto]]|reflexivity|]).
  all: match goal with |- context [SMac _ _ (?f ?x [])] => change (f x []) with (x ++ []); rewrite (app_nil_r x) end.
  all: try reflexivity.
  all: eapply event_read; [reflexivity|eassumption|reflexivity].
Qed.
