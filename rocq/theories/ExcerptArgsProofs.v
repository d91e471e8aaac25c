From Coq Require Import String Ascii Bool Arith Lia List.
From Verif Require Import Base Tokens Excerpt ExcerptArgs ExcerptArgsSpec ExcerptSpec ExcerptProofs.
Import ListNotations.
Open Scope string_scope.
Open Scope list_scope.

Definition set (o : opts) (s : setting) : opts :=
  let '(ln, tr, sh, pd) := o in
  match s with
  | SLines n => (Some n, tr, sh, pd)
  | STrunc n => (ln, Some n, sh, pd)
  | SShow => (ln, tr, true, pd)
  | SPad p => (ln, tr, sh, Some p)
  end.

(** the literal that is read *)
Definition read_as (v : wval) : lit := match v with WLit l => l | WBool b => LOther (if b then "true" else "false") | WNeg _ => LOther "-" end.
Lemma read_wval v sp r : parse_lit (wval_toks v sp ++ r) = Some (read_as v, r).
Proof. destruct v as [l|[|]|n]; reflexivity. Qed.
Lemma apply_means o n v s : means n v s -> apply_opt o n (option_map read_as v) = Ok (set o s).
Proof. intros H; destruct o as [[[ln tr] sh] pd]; destruct H; reflexivity. Qed.

Lemma apply_not o n v : (forall s, ~ means n v s) -> apply_opt o n (option_map read_as v) = Err (ErrOption n).
Proof.
  intros H. destruct o as [[[ln tr] sh] pd]. unfold apply_opt.
  destruct (String.eqb_spec n "excerpt_line") as [->|_].
  { destruct v as [[[s|k|s]|b|m]|]; try reflexivity. exfalso. eapply H. constructor. }
  destruct (String.eqb_spec n "truncate_str") as [->|_].
  { destruct v as [[[s|k|s]|b|m]|]; try reflexivity; exfalso; eapply H; constructor. }
  destruct (String.eqb_spec n "show_line_num") as [->|_].
  { exfalso; eapply H; constructor. }
  destruct (String.eqb_spec n "padding") as [->|_]; [|reflexivity].
  destruct v as [[[s|k|s]|b|m]|]; try reflexivity; [|exfalso; eapply H; constructor].
  cbn [option_map read_as]. destruct (String.eqb_spec s "top") as [->|_]; [exfalso; eapply H; constructor|].
  destruct (String.eqb_spec s "bottom") as [->|_]; [exfalso; eapply H; constructor|].
  destruct (String.eqb_spec s "both") as [->|_]; [exfalso; eapply H; constructor|]. reflexivity.
Qed.

(** what follows the options *)
Definition tail_toks (semi : option span) (e : list tt) : list tt :=
  match semi with Some sp => [TPunct ";" sp] | None => [] end ++ e.

Definition no_comma (ts : list tt) : Prop := skip_comma ts = ts.
Lemma no_comma_wopt o r : no_comma (wopt_toks o ++ r).
Proof. reflexivity. Qed.
Lemma no_comma_tail semi e : expr_like e -> no_comma (tail_toks semi e).
Proof.
  intros (t & r & -> & _ & _ & H). destruct semi; unfold no_comma; simpl; [reflexivity|]. rewrite H. reflexivity.
Qed.

Lemma parse_wopt o rest : (wo_val o = None -> wo_comma o = true \/ exists sp r, rest = TPunct ";" sp :: r) ->
  no_comma rest ->
  exists r, parse_opt (wopt_toks o ++ rest) = Some (wo_name o, option_map read_as (wo_val o), r) /\ skip_comma r = rest.
Proof.
  intros H Hc. destruct o as [n v c at_]. unfold wopt_toks. cbn [wo_name wo_val wo_comma wo_at] in *.
  destruct v as [l|].
  - exists ((if c then [TPunct "," at_] else []) ++ rest). split; [|destruct c; [reflexivity|exact Hc]].
    destruct l as [l|[|]|m], c; reflexivity.
  - destruct c.
    + exists (TPunct "," at_ :: rest). split; reflexivity.
    + destruct (H eq_refl) as [H1|(sp & r & ->)]; [discriminate|]. exists (TPunct ";" sp :: r). split; [reflexivity|exact Hc].
Qed.

Lemma rest_no_comma os semi e : expr_like e -> no_comma (flat_map wopt_toks os ++ tail_toks semi e).
Proof. intros He. destruct os; [apply no_comma_tail; exact He|reflexivity]. Qed.

Lemma sep_rest o r semi e : (wo_val o = None -> wo_comma o = true \/ (r = [] /\ semi <> None)) ->
  wo_val o = None -> wo_comma o = true \/ exists sp x, flat_map wopt_toks r ++ tail_toks semi e = TPunct ";" sp :: x.
Proof.
  intros H Hv. destruct (H Hv) as [H1|[-> H2]]; [now left|right]. destruct semi as [sp|]; [|congruence].
  exists sp, e. reflexivity.
Qed.

Lemma loop_ok os : forall fuel semi e ss o, length os < fuel -> separated os semi -> expr_like e ->
  Forall2 (fun w s => means (wo_name w) (wo_val w) s) os ss ->
  opts_loop fuel o (flat_map wopt_toks os ++ tail_toks semi e) = Ok (fold_left set ss o, e).
Proof.
  induction os as [|w os IH]; intros fuel semi e ss o Hf Hs He HF; inversion HF; subst; clear HF.
  - destruct fuel as [|fuel]; [simpl in Hf; lia|]. simpl flat_map. simpl app. simpl fold_left.
    destruct semi as [sp|]; [reflexivity|]. destruct He as (t & r & -> & H1 & H2 & H3). simpl. rewrite H2.
    unfold parse_opt. rewrite H1. destruct r as [|[s q|c q|l q|d l q] r]; reflexivity.
  - destruct fuel as [|fuel]; [simpl in Hf; lia|]. simpl in Hf, Hs. destruct Hs as [Hs1 Hs2].
    cbn [flat_map app]. rewrite <- app_assoc.
    destruct (parse_wopt w (flat_map wopt_toks os ++ tail_toks semi e) (sep_rest _ _ _ _ Hs1) (rest_no_comma _ _ _ He)) as (r & E1 & E2).
    assert (Hstep : forall ts, opts_loop (S fuel) o (wopt_toks w ++ ts) =
      match parse_opt (wopt_toks w ++ ts) with
      | None => Ok (o, wopt_toks w ++ ts)
      | Some (name, v, rest) => bindR (apply_opt o name v) (fun o' => opts_loop fuel o' (skip_comma rest))
      end) by reflexivity.
    rewrite Hstep, E1. cbv iota beta. rewrite (apply_means _ _ _ _ H1). simpl bindR. rewrite E2. simpl fold_left. apply IH; [lia|assumption..].
Qed.

Lemma loop_bad os : forall fuel semi e ss o w r, length os < fuel -> separated (os ++ w :: r) semi -> expr_like e ->
  Forall2 (fun w s => means (wo_name w) (wo_val w) s) os ss -> (forall s, ~ means (wo_name w) (wo_val w) s) ->
  opts_loop fuel o (flat_map wopt_toks (os ++ w :: r) ++ tail_toks semi e) = Err (ErrOption (wo_name w)).
Proof.
  induction os as [|w0 os IH]; intros fuel semi e ss o w r Hf Hs He HF Hbad; inversion HF; subst; clear HF.
  - destruct fuel as [|fuel]; [simpl in Hf; lia|]. simpl in Hs. destruct Hs as [Hs1 Hs2].
    cbn [flat_map app]. rewrite <- app_assoc.
    destruct (parse_wopt w (flat_map wopt_toks r ++ tail_toks semi e) (sep_rest _ _ _ _ Hs1) (rest_no_comma _ _ _ He)) as (r' & E1 & E2).
    assert (Hstep : forall ts, opts_loop (S fuel) o (wopt_toks w ++ ts) =
      match parse_opt (wopt_toks w ++ ts) with
      | None => Ok (o, wopt_toks w ++ ts)
      | Some (name, v, rest) => bindR (apply_opt o name v) (fun o' => opts_loop fuel o' (skip_comma rest))
      end) by reflexivity.
    rewrite Hstep, E1. cbv iota beta. rewrite apply_not by exact Hbad. reflexivity.
  - destruct fuel as [|fuel]; [simpl in Hf; lia|]. simpl in Hf, Hs. destruct Hs as [Hs1 Hs2].
    cbn [flat_map app]. rewrite <- app_assoc.
    destruct (parse_wopt w0 (flat_map wopt_toks (os ++ w :: r) ++ tail_toks semi e) (sep_rest _ _ _ _ Hs1) (rest_no_comma _ _ _ He)) as (r' & E1 & E2).
    assert (Hstep : forall ts, opts_loop (S fuel) o (wopt_toks w0 ++ ts) =
      match parse_opt (wopt_toks w0 ++ ts) with
      | None => Ok (o, wopt_toks w0 ++ ts)
      | Some (name, v, rest) => bindR (apply_opt o name v) (fun o' => opts_loop fuel o' (skip_comma rest))
      end) by reflexivity.
    rewrite Hstep, E1. cbv iota beta. rewrite (apply_means _ _ _ _ H1). simpl bindR. rewrite E2. eapply IH; try eassumption. lia.
Qed.

Lemma fold_set ss : forall ln tr sh pd, fold_left set ss (ln, tr, sh, pd) =
  (match last_picked pick_lines ss with Some n => Some n | None => ln end,
   match last_picked pick_trunc ss with Some n => Some n | None => tr end,
   sh || existsb (fun s => match s with SShow => true | _ => false end) ss,
   match last_picked pick_pad ss with Some n => Some n | None => pd end).
Proof.
  induction ss as [|s ss IH]; intros ln tr sh pd; simpl.
  - destruct sh; reflexivity.
  - destruct s; simpl; rewrite IH; simpl;
      destruct (last_picked pick_lines ss), (last_picked pick_trunc ss), (last_picked pick_pad ss); simpl;
      rewrite ?Bool.orb_true_r; reflexivity.
Qed.

Lemma fuel_enough os semi e : expr_like e -> length os < length (input_toks os semi e).
Proof.
  intros (t & r & -> & _). unfold input_toks. rewrite app_length.
  assert (length os <= length (flat_map wopt_toks os)).
  { induction os as [|o os IH]; [simpl; lia|]. cbn [flat_map]. rewrite app_length. unfold wopt_toks at 1. simpl. lia. }
  rewrite app_length. simpl. lia.
Qed.

Lemma parse_margs_ok X (parse_expr : list tt -> option X) os semi e x ss :
  separated os semi -> expr_like e -> parse_expr e = Some x ->
  Forall2 (fun w s => means (wo_name w) (wo_val w) s) os ss ->
  exists a, parse_margs X parse_expr (input_toks os semi e) = Ok a /\ ma_expr a = x /\
    ma_lines a = last_picked pick_lines ss /\ ma_trunc a = last_picked pick_trunc ss /\
    ma_pad a = last_picked pick_pad ss /\ (ma_show a = true <-> In SShow ss).
Proof.
  intros Hs He Hx HF. unfold parse_margs.
  rewrite (loop_ok os _ semi e ss _ (fuel_enough os semi e He) Hs He HF : opts_loop _ _ (input_toks os semi e) = _).
  rewrite fold_set. simpl bindR. rewrite Hx. eexists. split; [reflexivity|]. cbn [ma_expr ma_lines ma_trunc ma_pad ma_show].
  repeat split.
  - destruct (last_picked pick_lines ss); reflexivity.
  - destruct (last_picked pick_trunc ss); reflexivity.
  - destruct (last_picked pick_pad ss); reflexivity.
  - intros H. apply existsb_exists in H. destruct H as (s & Hin & Hb). destruct s; try discriminate. exact Hin.
  - intros H. apply existsb_exists. exists SShow. split; [exact H|reflexivity].
Qed.

Lemma parse_margs_bad X (parse_expr : list tt -> option X) os w r semi e ss :
  separated (os ++ w :: r) semi -> expr_like e ->
  Forall2 (fun w s => means (wo_name w) (wo_val w) s) os ss -> (forall s, ~ means (wo_name w) (wo_val w) s) ->
  parse_margs X parse_expr (input_toks (os ++ w :: r) semi e) = Err (ErrOption (wo_name w)).
Proof.
  intros Hs He HF Hbad. unfold parse_margs.
  assert (E : opts_loop (length (input_toks (os ++ w :: r) semi e)) (None, None, false, None) (input_toks (os ++ w :: r) semi e)
    = Err (ErrOption (wo_name w))).
  { eapply loop_bad; try eassumption. pose proof (fuel_enough (os ++ w :: r) semi e He) as H. rewrite app_length in H. lia. }
  rewrite E. reflexivity.
Qed.

Lemma one_line_macro_no_nl escape parse_expr ts s : one_line_stringify escape parse_expr ts = Ok s -> no_nl s.
Proof.
  unfold one_line_stringify. destruct (parse_margs pexpr parse_expr ts) as [a|x|]; simpl; intros E; inversion E.
  apply one_line_no_nl.
Qed.

Lemma excerpt_effect escape parse_expr os semi e x ss :
  separated os semi -> expr_like e -> parse_expr e = Some x ->
  Forall2 (fun w s => means (wo_name w) (wo_val w) s) os ss ->
  exists s, excerpted_pretty_stringify escape parse_expr (input_toks os semi e) = excerpted_pretty_str escape x s /\
    es_max s = match last_picked pick_lines ss with Some n => n | None => 5 end /\
    es_trunc s = Truncate (match last_picked pick_trunc ss with Some o => o | None => None end) /\
    ps_show (es_pretty s) = true /\
    (ps_top (es_pretty s) = true <-> last_picked pick_pad ss = Some PadTop \/ last_picked pick_pad ss = Some PadBoth) /\
    ps_bottom (es_pretty s) = true.
Proof.
  intros H1 H2 H3 H4. destruct (parse_margs_ok pexpr parse_expr os semi e x ss H1 H2 H3 H4) as (a & E & Ex & El & Et & Ep & Es).
  unfold excerpted_pretty_stringify. rewrite E. simpl bindR. rewrite Ex. exists (excerpt_setting_of a). split; [reflexivity|].
  unfold excerpt_setting_of. cbn [es_max es_trunc es_pretty]. rewrite El, Et, Ep.
  split; [destruct (last_picked pick_lines ss); reflexivity|]. split; [destruct (last_picked pick_trunc ss); reflexivity|].
  destruct (last_picked pick_pad ss) as [[| |]|]; destruct (ma_show a); cbn; intuition congruence.
Qed.

Lemma pretty_effect parse_expr os semi e x ss :
  separated os semi -> expr_like e -> parse_expr e = Some x ->
  Forall2 (fun w s => means (wo_name w) (wo_val w) s) os ss ->
  exists s, pretty_stringify parse_expr (input_toks os semi e) =
    Ok (let r := into_pretty_str x s in
        match pr_top r with Some t => t | None => [] end ++ pr_body r ++ match pr_bottom r with Some t => t | None => [] end) /\
    (ps_show s = true <-> In SShow ss) /\
    (ps_top s = true <-> last_picked pick_pad ss = Some PadTop \/ last_picked pick_pad ss = Some PadBoth) /\
    (ps_bottom s = true <-> last_picked pick_pad ss = Some PadBottom \/ last_picked pick_pad ss = Some PadBoth).
Proof.
  intros H1 H2 H3 H4. destruct (parse_margs_ok pexpr parse_expr os semi e x ss H1 H2 H3 H4) as (a & E & Ex & El & Et & Ep & Es).
  unfold pretty_stringify. rewrite E. simpl bindR. rewrite Ex. exists (pretty_settings_of a). split; [reflexivity|].
  unfold pretty_settings_of. rewrite Ep.
  destruct (last_picked pick_pad ss) as [[| |]|]; cbn; (split; [exact Es|]); intuition congruence.
Qed.

Lemma one_line_effect escape parse_expr os semi e x ss :
  separated os semi -> expr_like e -> parse_expr e = Some x ->
  Forall2 (fun w s => means (wo_name w) (wo_val w) s) os ss ->
  one_line_stringify escape parse_expr (input_toks os semi e) =
    Ok (one_line_pretty_str escape x (match last_picked pick_trunc ss with Some o => Truncate o | None => NoTruncation end)) /\
  truncate_lit_str_macro escape parse_expr (input_toks os semi e) =
    Ok (truncate_expr escape (match last_picked pick_trunc ss with Some o => o | None => None end) x).
Proof.
  intros H1 H2 H3 H4. destruct (parse_margs_ok pexpr parse_expr os semi e x ss H1 H2 H3 H4) as (a & E & Ex & El & Et & Ep & Es).
  unfold one_line_stringify, truncate_lit_str_macro. rewrite E. simpl bindR. rewrite Ex, Et. split; reflexivity.
Qed.
