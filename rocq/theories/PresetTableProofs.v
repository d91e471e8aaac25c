(** The presets one by one.  *)
From Coq Require Import String Ascii Bool Arith Lia List.
From Verif Require Import Base Tokens Method Paths Context Flavor FlavorSpec CrateName PresetSpec.
Import ListNotations.
Open Scope string_scope.
Open Scope list_scope.

Definition leaf (g : flavor) : Prop := f_subs g = [].
Lemma under_leaf g l f : leaf g -> under g l f -> l = [] /\ f = g.
Proof. intros Hl H. inversion H; subst; [auto|]. unfold leaf in Hl. cbn in Hl. subst. discriminate. Qed.
Lemma mget_cons {A} n k (v : A) m : mget n ((k, v) :: m) = if String.eqb n k then Some v else mget n m.
Proof. reflexivity. Qed.
Definition log_level (ft : features) (n : string) : flavor :=
  Flavor (core_with [] (parse_method (ft_consume ft) (log_method_toks (ft_crate ft))) (level_binding ["log"; "Level"; n])) [].
Definition tracing_level (ft : features) (n : string) : flavor :=
  Flavor (core_with [] (parse_method (ft_consume ft) (tracing_method_toks (ft_crate ft))) (level_binding ["tracing"; "Level"; n])) [].
Definition preset_table (ft : features) : list (bool * list string * flavor) :=
  [(true, ["default"], default_flavor ft); (true, ["empty"], empty_flavor ft); (true, ["hook"], hook_flavor ft);
   (ft_log ft, ["log"], log_flavor ft); (ft_log ft, ["log"; "error"], log_level ft "Error"); (ft_log ft, ["log"; "warn"], log_level ft "Warn");
   (ft_log ft, ["log"; "info"], log_level ft "Info"); (ft_log ft, ["log"; "debug"], log_level ft "Debug"); (ft_log ft, ["log"; "trace"], log_level ft "Trace");
   (ft_anyhow ft, ["anyhow"], anyhow_flavor ft); (ft_eyre ft, ["eyre"], eyre_flavor ft); (ft_eyre ft, ["color_eyre"], color_eyre_flavor ft);
   (ft_tracing ft, ["tracing"], tracing_flavor ft); (ft_tracing ft, ["tracing"; "error"], tracing_level ft "ERROR"); (ft_tracing ft, ["tracing"; "warn"], tracing_level ft "WARN");
   (ft_tracing ft, ["tracing"; "info"], tracing_level ft "INFO"); (ft_tracing ft, ["tracing"; "debug"], tracing_level ft "DEBUG"); (ft_tracing ft, ["tracing"; "trace"], tracing_level ft "TRACE")].

Ltac pick := repeat first [left; reflexivity | right].
Lemma under_levels c (mk : string -> flavor) (subs : list (string * string)) l f : (forall n, leaf (mk n)) ->
  under (Flavor c (map (fun nl => (fst nl, mk (snd nl))) subs)) l f ->
  l = [] /\ f = Flavor c (map (fun nl => (fst nl, mk (snd nl))) subs) \/ exists n v, In (n, v) subs /\ l = [n] /\ f = mk v.
Proof.
  intros Hl H. inversion H as [|c0 s0 n g l0 f0 Hm Hu]; subst; [left; auto|right].
  assert (Hn : exists v, In (n, v) subs /\ g = mk v).
  { clear - Hm. induction subs as [|[k v] subs IH]; [discriminate|]. cbn [map fst snd] in Hm. rewrite mget_cons in Hm. destruct (String.eqb_spec n k) as [->|].
    - inversion Hm; subst. exists v. split; [left; reflexivity|reflexivity].
    - destruct (IH Hm) as (v' & Hi & ->). exists v'. split; [right; exact Hi|reflexivity]. }
  destruct Hn as (v & Hi & ->). destruct (under_leaf _ _ _ (Hl v) Hu) as [-> ->]. eauto.
Qed.
Lemma log_under ft l f : under (log_flavor ft) l f -> l = [] /\ f = log_flavor ft \/ exists n v,
  In (n, v) [("error", "Error"); ("warn", "Warn"); ("info", "Info"); ("debug", "Debug"); ("trace", "Trace")] /\ l = [n] /\ f = log_level ft v.
Proof. intros H. exact (under_levels _ (log_level ft) _ l f (fun _ => eq_refl) H). Qed.
Lemma tracing_under ft l f : under (tracing_flavor ft) l f -> l = [] /\ f = tracing_flavor ft \/ exists n v,
  In (n, v) [("error", "ERROR"); ("warn", "WARN"); ("info", "INFO"); ("debug", "DEBUG"); ("trace", "TRACE")] /\ l = [n] /\ f = tracing_level ft v.
Proof. intros H. exact (under_levels _ (tracing_level ft) _ l f (fun _ => eq_refl) H). Qed.

Lemma preset_in ft p g : at_path (preset_flavors ft) p g -> In (true, p, g) (preset_table ft).
Proof.
  intros H. inversion H as [n g0 l f Hm Hu]; subst.
  assert (Hg : In (true, n, g0) [(true, "default", default_flavor ft); (true, "empty", empty_flavor ft); (true, "hook", hook_flavor ft); (ft_log ft, "log", log_flavor ft);
     (ft_anyhow ft, "anyhow", anyhow_flavor ft); (ft_eyre ft, "eyre", eyre_flavor ft); (ft_eyre ft, "color_eyre", color_eyre_flavor ft); (ft_tracing ft, "tracing", tracing_flavor ft)]).
  { clear - Hm. unfold preset_flavors in Hm. destruct (ft_log ft), (ft_anyhow ft), (ft_eyre ft), (ft_tracing ft); cbn [app] in Hm; rewrite ?mget_cons in Hm;
    repeat match type of Hm with (if String.eqb n ?k then _ else _) = _ => destruct (String.eqb_spec n k) as [->|_]; [inversion Hm; subst; pick|] end; discriminate. }
  clear Hm H. cbn [In] in Hg; repeat match type of Hg with _ \/ _ => destruct Hg as [Hg|Hg] | False => destruct Hg end; inversion Hg; subst; clear Hg;
    unfold preset_table; repeat match goal with Hb : _ ft = true |- _ => rewrite Hb; clear Hb end;
    lazymatch type of Hu with
    | under (log_flavor _) _ _ =>
        apply log_under in Hu; destruct Hu as [[-> ->]|(n' & v & Hi & -> & ->)]; [pick|];
        cbn [In] in Hi; repeat match type of Hi with _ \/ _ => destruct Hi as [Hi|Hi] | False => destruct Hi end; inversion Hi; subst; pick
    | under (tracing_flavor _) _ _ =>
        apply tracing_under in Hu; destruct Hu as [[-> ->]|(n' & v & Hi & -> & ->)]; [pick|];
        cbn [In] in Hi; repeat match type of Hi with _ \/ _ => destruct Hi as [Hi|Hi] | False => destruct Hi end; inversion Hi; subst; pick
    | _ => apply under_leaf in Hu; [|reflexivity]; destruct Hu as [-> ->]; pick
    end.
Qed.
Lemma in_preset ft p g : In (true, p, g) (preset_table ft) -> at_path (preset_flavors ft) p g.
Proof.
  intros Hg. unfold preset_table in Hg. cbn [In] in Hg; repeat match type of Hg with _ \/ _ => destruct Hg as [Hg|Hg] | False => destruct Hg end; inversion Hg; subst; clear Hg;
    unfold preset_flavors; repeat match goal with Hb : _ ft = true |- _ => rewrite Hb; clear Hb end; repeat match goal with |- context [if ?b then _ else _] => destruct b end;
    (eapply at_top; [reflexivity|]); first [apply un_here | eapply un_sub; [reflexivity|apply un_here]].
Qed.
Lemma triple {A B C} (a a' : A) (b b' : B) (c c' : C) : (a, b, c) = (a', b', c') -> a = a' /\ b = b' /\ c = c'.
Proof. intros H. inversion H. auto. Qed.
Ltac cases H := unfold preset_table in H; cbn [In] in H; repeat match type of H with _ \/ _ => destruct H as [H|H] | False => destruct H end; let Hb := fresh "Hb" in apply triple in H; destruct H as (Hb & <- & <-).
Lemma preset_paths ft p : (exists g, at_path (preset_flavors ft) p g) <-> listed ft p.
Proof.
  split.
  - intros (g & H). apply preset_in in H. cases H;
      first [apply li_always; cbn; tauto | apply li_anyhow; congruence | apply li_eyre; [congruence|cbn; tauto] | apply li_log; congruence | apply li_tracing; congruence
            |apply li_log_level; [congruence|cbn; tauto] | apply li_tracing_level; [congruence|cbn; tauto]].
  - intros H. assert (Hi : exists g, In (true, p, g) (preset_table ft)); [|destruct Hi as (g & Hi); exists g; apply in_preset, Hi].
    inversion H; subst; unfold preset_table;
      repeat match goal with Hi : In _ _ |- _ => cbn [In levels] in Hi; repeat match type of Hi with _ \/ _ => destruct Hi as [Hi|Hi] | False => destruct Hi end; subst end;
      repeat match goal with Hb : _ ft = true |- _ => rewrite Hb; clear Hb end;
      eexists; pick.
Qed.
Lemma preset_is ft p g : at_path (preset_flavors ft) p g ->
  p = ["empty"] /\ g = empty_flavor ft \/
  p <> ["empty"] /\
  (exists dot sp sp' arg, fl_method (f_core g) = Insert dot [TIdent (preset_call p) sp; TGroup Parenth arg sp'] false) /\
  (map p_idents (fl_traits (f_core g)) = preset_imports p /\ Forall (fun q => p_lead q = true /\ Forall (fun s => seg_args s = []) (p_segs q)) (fl_traits (f_core g))) /\
  fl_targets (f_core g) = mk_switch true true true /\ fl_tails (f_core g) = ["Err"] /\ fl_ignores (f_core g) = ["Ok"] /\ fl_results (f_core g) = ["Result"] /\
  fl_macros (f_core g) = true /\
  fl_bindings (f_core g) = match preset_level p with
                           | Some l => [("level", flat_map (fun n => [TPunct ":" call_site; TPunct ":" call_site; TIdent n call_site]) l)]
                           | None => []
                           end.
Proof.
  intros H. apply preset_in in H. destruct ft as [cq fl fa fe ft crate]. cbn [ft_log ft_anyhow ft_eyre ft_tracing] in H.
  cases H; try (left; split; reflexivity); right; (split; [discriminate|]); destruct cq; (split; [do 4 eexists; reflexivity|]); (split; [split; [reflexivity|repeat constructor]|]);
    repeat split; reflexivity.
Qed.
Lemma preset_same ft ft' p g g' : at_path (preset_flavors ft) p g -> at_path (preset_flavors ft') p g' -> ft_crate ft' = ft_crate ft -> g' = g.
Proof.
  intros H H' Hc. apply preset_in in H. apply preset_in in H'. destruct ft as [cq fl fa fe ftr crate], ft' as [cq' fl' fa' fe' ftr' crate']. cbn [ft_crate] in Hc. subst crate'.
  cases H; unfold preset_table in H'; cbn [In] in H'; repeat match type of H' with _ \/ _ => destruct H' as [H'|H'] | False => destruct H' end;
    apply triple in H'; destruct H' as (_ & Hp & <-); try discriminate Hp; destruct cq, cq'; reflexivity.
Qed.
Lemma get_replace d : forall i, String.get i (replace_dash d) = option_map (fun c => if Ascii.eqb c "-" then "_"%char else c) (String.get i d).
Proof. induction d as [|c d IH]; intros i; [reflexivity|]. cbn [replace_dash]. destruct i; [reflexivity|apply IH]. Qed.
Lemma preset_abs_paths ft p g q : at_path (preset_flavors ft) p g -> In q (abs_paths_of (m_template (fl_method (f_core g)))) ->
  q = ["std"; "eprintln"] \/ q = ["log"; "log"] \/ q = ["tracing"; "event"] \/
  (exists m, In m ["excerpted_pretty_stringify"; "one_line_stringify"] /\
     q = if String.eqb (ft_crate ft) "hooq_macros" then ["hooq_macros"; m] else [ft_crate ft; "source_excerpt_helpers"; m]).
Proof.
  intros H Hq. apply preset_in in H. destruct ft as [cq fl fa fe ft crate]. cbn [ft_log ft_anyhow ft_eyre ft_tracing ft_crate] in *.
  assert (Hh : helpers_path crate = (if String.eqb crate "hooq_macros" then qpath ["hooq_macros"] else qpath [crate; "source_excerpt_helpers"])).
  { unfold helpers_path. destruct (String.eqb_spec crate "hooq_macros") as [->|]; reflexivity. }
  cases H;
    cbn [f_core default_flavor empty_flavor hook_flavor log_flavor tracing_flavor anyhow_flavor eyre_flavor color_eyre_flavor log_level tracing_level default_core core_with fl_method default_method ft_consume ft_crate] in Hq;
    unfold default_method, default_method_toks, log_method_toks, tracing_method_toks, context_method_toks, preset_prefix, let_expr in Hq; cbn [ft_crate] in Hq; rewrite ?Hh in Hq; clear Hh;
    revert Hq; destruct (String.eqb crate "hooq_macros"), cq; intros Hq; vm_compute in Hq;
    repeat match type of Hq with _ \/ _ => destruct Hq as [<-|Hq] | False => destruct Hq end;
    first [left; reflexivity | right; left; reflexivity | right; right; left; reflexivity | right; right; right; eexists; split; [|reflexivity]; cbn; tauto].
Qed.
