(** The loop over macro arguments reads exactly the lists of EvalSpec.v.  *)
From Coq Require Import String Ascii Bool Arith Lia List.
From Verif Require Import Base Tokens Method Paths Context Syntax EvalList EvalSpec.
Import ListNotations.
Open Scope string_scope.
Open Scope list_scope.

Lemma sep_iff t : is_punct "," t || is_punct ";" t = true <-> separator t.
Proof.
  unfold separator. split.
  - destruct t; try discriminate. cbn [is_punct]. intros H. apply orb_true_iff in H. exists sp. destruct H as [H|H]; apply Ascii.eqb_eq in H; subst; auto.
  - intros (sp & [->| ->]); reflexivity.
Qed.
Lemma take_iff rest p r : at_boundary rest = true -> (take_punct rest = (p, r) <-> ends_at rest p r).
Proof.
  destruct rest as [|t rest]; intros H; cbn [take_punct at_boundary] in *.
  - split; [intros Hx; inversion Hx; constructor|intros Hx; inversion Hx; reflexivity].
  - rewrite orb_comm in H. rewrite H. apply sep_iff in H. split; [intros Hx; inversion Hx; constructor; exact H|intros Hx; inversion Hx; reflexivity].
Qed.
Lemma boundary_iff rest : at_boundary rest = true <-> ended rest.
Proof.
  split.
  - intros H. destruct (take_punct rest) as [p r] eqn:E. exists p, r. apply take_iff; assumption.
  - intros (p & r & H). inversion H as [|t r' Hs]; subst; [reflexivity|]. cbn [at_boundary]. rewrite orb_comm. apply sep_iff, Hs.
Qed.
Lemma keep_iff {A} (o : option (A * list tt)) x r : keep o = Some (x, r) <-> o = Some (x, r) /\ ended r.
Proof.
  unfold keep. destruct o as [[y s]|]; [|split; [discriminate|intros [H _]; discriminate]]. destruct (at_boundary s) eqn:E.
  - apply boundary_iff in E. split; [intros H; inversion H; subst; auto|intros [H _]; exact H].
  - split; [discriminate|]. intros [H He]. inversion H; subst. apply boundary_iff in He. congruence.
Qed.
Lemma keep_none {A} (o : option (A * list tt)) : keep o = None <-> forall x r, ~ (o = Some (x, r) /\ ended r).
Proof.
  split.
  - intros H x r Hx. apply keep_iff in Hx. congruence.
  - intros H. destruct (keep o) as [[x r]|] eqn:E; [|reflexivity]. apply keep_iff in E. exfalso. eapply H, E.
Qed.

Section Loop.
  Variable ps : parsers.
  Lemma piece_iff ts p v rest : (exists mk, parse_evaluable ps ts = Some (mk, rest) /\ v = mk p) <-> piece ps ts p v rest.
  Proof.
    unfold parse_evaluable. split.
    - destruct (keep (ps_file ps ts)) as [[[fa its] r]|] eqn:E1.
      { intros (mk & H & ->). inversion H; subst. apply pc_file. apply keep_iff, E1. }
      assert (H1 : forall fa its r, ~ file_at ps ts fa its r) by (intros fa its r; exact (proj1 (keep_none _) E1 (fa, its) r)).
      destruct (keep (ps_item ps ts)) as [[i r]|] eqn:E2.
      { intros (mk & H & ->). inversion H; subst. apply pc_item; [exact H1|]. apply keep_iff, E2. }
      destruct (keep (ps_expr ps ts)) as [[i r]|] eqn:E3.
      { intros (mk & H & ->). inversion H; subst. apply pc_expr; [exact H1|exact (proj1 (keep_none _) E2)|]. apply keep_iff, E3. }
      destruct (keep (ps_stmt ps ts)) as [[i r]|] eqn:E4; [|intros (mk & H & _); discriminate].
      intros (mk & H & ->). inversion H; subst. apply pc_stmt; [exact H1|exact (proj1 (keep_none _) E2)|exact (proj1 (keep_none _) E3)|]. apply keep_iff, E4.
    - intros H. inversion H as [ts' fa its r p' H1|ts' i r p' H1 H2|ts' e r p' H1 H2 H3|ts' s r p' H1 H2 H3 H4]; subst.
      + apply keep_iff in H1. rewrite H1. eauto.
      + replace (keep (ps_file ps ts)) with (@None ((list attr * list item) * list tt)) by (symmetry; apply keep_none; intros [? ?] ?; apply H1).
        apply keep_iff in H2. rewrite H2. eauto.
      + replace (keep (ps_file ps ts)) with (@None ((list attr * list item) * list tt)) by (symmetry; apply keep_none; intros [? ?] ?; apply H1).
        apply keep_none in H2. apply keep_iff in H3. rewrite H2, H3. eauto.
      + replace (keep (ps_file ps ts)) with (@None ((list attr * list item) * list tt)) by (symmetry; apply keep_none; intros [? ?] ?; apply H1).
        apply keep_none in H2. apply keep_none in H3. apply keep_iff in H4. rewrite H2, H3, H4. eauto.
  Qed.
  Lemma piece_ended ts p v rest : piece ps ts p v rest -> ended rest.
  Proof. intros H. inversion H; subst; match goal with H : _ /\ ended _ |- _ => exact (proj2 H) | H : file_at _ _ _ _ _ |- _ => exact (proj2 H) | H : item_at _ _ _ _ |- _ => exact (proj2 H) | H : expr_at _ _ _ _ |- _ => exact (proj2 H) | H : stmt_at _ _ _ _ |- _ => exact (proj2 H) end. Qed.
  Lemma piece_shrinks ts p v rest : shrinking ps -> piece ps ts p v rest -> length rest <= length ts.
  Proof. intros (S1 & S2 & S3 & S4) H. inversion H; subst; match goal with
    | H : file_at _ _ _ _ _ |- _ => eapply S1, (proj1 H) | H : item_at _ _ _ _ |- _ => eapply S2, (proj1 H) | H : expr_at _ _ _ _ |- _ => eapply S3, (proj1 H) | H : stmt_at _ _ _ _ |- _ => eapply S4, (proj1 H) end. Qed.

  Lemma parse_listed fuel : forall ts l, parse_list ps fuel ts = Some (Some l) -> listed ps ts l.
  Proof.
    induction fuel as [|fuel IH]; intros ts l; destruct ts as [|t ts]; cbn [parse_list]; try discriminate; try (intros H; inversion H; constructor).
    destruct (parse_evaluable ps (t :: ts)) as [[mk rest]|] eqn:E; [|discriminate]. destruct (take_punct rest) as [p rest'] eqn:Et.
    destruct (parse_list ps fuel rest') as [[l'|]|] eqn:El; try discriminate. intros H. inversion H; subst.
    assert (Hp : piece ps (t :: ts) p (mk p) rest) by (apply piece_iff; eauto).
    eapply ls_cons; [discriminate|exact Hp| |apply IH, El]. apply take_iff; [|exact Et]. apply boundary_iff. eapply piece_ended, Hp.
  Qed.
  Lemma ends_shorter rest p r (ts : list tt) : ends_at rest p r -> length rest <= length ts -> ts <> [] -> length r < length ts.
  Proof. intros H Hl Hn. inversion H; subst; cbn [length] in *; [destruct ts; [congruence|cbn; lia]|lia]. Qed.
  Lemma listed_parse ts l : listed ps ts l -> shrinking ps -> forall fuel, length ts <= fuel -> parse_list ps fuel ts = Some (Some l).
  Proof.
    intros H Hs. induction H as [|ts v p rest rest' l Hne Hp He Hl IH]; intros fuel Hf; [destruct fuel; reflexivity|].
    pose proof (piece_shrinks _ _ _ _ Hs Hp) as Hlen. pose proof (ends_shorter _ _ _ _ He Hlen Hne) as Hlt.
    destruct ts as [|t ts]; [congruence|]. destruct fuel as [|fuel]; [cbn in Hf; lia|]. cbn [parse_list].
    pose proof (piece_ended _ _ _ _ Hp) as Hend. apply piece_iff in Hp. destruct Hp as (mk & -> & ->).
    apply take_iff in He; [|apply boundary_iff, Hend]. rewrite He. cbn [length] in *. rewrite IH by lia. reflexivity.
  Qed.
  Lemma parse_ends : shrinking ps -> forall fuel ts, length ts <= fuel -> parse_list ps fuel ts <> None.
  Proof.
    intros Hs. induction fuel as [|fuel IH]; intros ts Hf; destruct ts as [|t ts]; cbn [parse_list]; try discriminate; [cbn in Hf; lia|].
    destruct (parse_evaluable ps (t :: ts)) as [[mk rest]|] eqn:E; [|discriminate]. destruct (take_punct rest) as [p rest'] eqn:Et.
    assert (Hp : piece ps (t :: ts) p (mk p) rest) by (apply piece_iff; eauto).
    apply take_iff in Et; [|apply boundary_iff; eapply piece_ended, Hp].
    pose proof (ends_shorter _ _ _ (t :: ts) Et (piece_shrinks _ _ _ _ Hs Hp) ltac:(discriminate)) as Hlt. cbn [length] in *.
    specialize (IH rest'). destruct (parse_list ps fuel rest') as [[l'|]|]; try discriminate. exfalso. apply IH; [lia|reflexivity].
  Qed.
  Lemma listed_read ts l : listed ps ts l -> printing ps -> ts = flat_map read_toks l.
  Proof.
    intros H (P1 & P2 & P3 & P4). induction H as [|ts v p rest rest' l Hne Hp He Hl IH]; [reflexivity|]. cbn [flat_map]. rewrite <- IH.
    assert (Hr : rest = p ++ rest') by (inversion He; reflexivity).
    inversion Hp as [ts' fa its r p' [H1 _]|ts' i r p' _ [H1 _]|ts' e r p' _ _ [H1 _]|ts' s r p' _ _ _ [H1 _]]; subst; cbn [read_toks vtoks];
      first [apply P1 in H1|apply P2 in H1|apply P3 in H1|apply P4 in H1]; rewrite H1, <- !app_assoc; reflexivity.
  Qed.
  Lemma listed_unique ts l : listed ps ts l -> shrinking ps -> forall l', listed ps ts l' -> l' = l.
  Proof. intros H Hs l' H'. apply listed_parse with (fuel := length ts) in H; auto. apply listed_parse with (fuel := length ts) in H'; auto. congruence. Qed.
End Loop.
