(** What a method written as tokens is.  *)
From Coq Require Import String Ascii Bool Arith List.
From Verif Require Import Base Tokens Method MethodSpec.
Import ListNotations.
Open Scope string_scope.
Open Scope list_scope.

(** ** The code does that *)
Lemma bang_dec t : (exists sp, t = TPunct "!" sp) \/ forall (A : Type) (x : span -> A) (y : A), match t with TPunct "!" sp => x sp | _ => y end = y.
Proof.
  destruct t as [| |c sp|]; try (right; reflexivity). destruct (ascii_dec c "!"%char) as [->|Hn]; [left; eauto|right]. intros A x y.
  repeat match goal with |- context [match ?z with _ => _ end] => is_var z; destruct z end; try reflexivity; congruence.
Qed.
Lemma dot_dec t : (exists sp, t = TPunct "." sp) \/ forall (A : Type) (x : span -> A) (y : A), match t with TPunct "." sp => x sp | _ => y end = y.
Proof.
  destruct t as [| |c sp|]; try (right; reflexivity). destruct (ascii_dec c "."%char) as [->|Hn]; [left; eauto|right]. intros A x y.
  repeat match goal with |- context [match ?z with _ => _ end] => is_var z; destruct z end; try reflexivity; congruence.
Qed.
Lemma split_strip ts : strip true ts (fst (split_tail_exclamation ts)) (snd (split_tail_exclamation ts)).
Proof.
  unfold split_tail_exclamation. destruct (rev ts) as [|t r] eqn:Er.
  - cbn [fst snd]. apply sp_none. right. intros (l & sp & H). rewrite H in Er. rewrite rev_app_distr in Er. discriminate.
  - assert (Hts : ts = rev r ++ [t]) by (rewrite <- (rev_involutive ts), Er; reflexivity).
    destruct (bang_dec t) as [(sp & ->)|Hn]; [cbn [fst snd]; rewrite Hts at 1; now apply sp_bang|].
    pose proof (Hn _ (fun _ : span => (rev r, true)) (ts, false)) as Hv. cbv beta in Hv. rewrite Hv. cbn [fst snd]. apply sp_none. right. intros (l & sp & H).
    rewrite H in Hts. apply app_inj_tail in Hts. destruct Hts as [_ <-]. specialize (Hn bool (fun _ => true) false). discriminate.
Qed.
Lemma parse_method_ok b ts : method_of b ts (parse_method b ts).
Proof.
  assert (Hrep : ~ starts_dot ts -> parse_method b ts = Replace (if b then fst (split_tail_exclamation ts) else ts) (if b then snd (split_tail_exclamation ts) else false)).
  { intros Hn. unfold parse_method. destruct ts as [|t r]; [destruct b; reflexivity|]. destruct (dot_dec t) as [(sp & ->)|Hd]; [exfalso; apply Hn; now exists sp, r|].
    specialize (Hd _ (fun sp => if b then let '(ts, exc) := split_tail_exclamation r in Insert sp ts exc else Insert sp r false)
      (if b then let '(ts, exc) := split_tail_exclamation (t :: r) in Replace ts exc else Replace (t :: r) false)). cbv beta in Hd. rewrite Hd.
    destruct b; [|reflexivity]. destruct (split_tail_exclamation (t :: r)); reflexivity. }
  destruct ts as [|t r].
  - rewrite Hrep by (intros (? & ? & ?); discriminate). apply mo_replace; [intros (? & ? & ?); discriminate|]. destruct b; apply sp_none; [right|now left]. intros (l & sp & H). destruct l; discriminate.
  - destruct (dot_dec t) as [(sp & ->)|Hd].
    + unfold parse_method. destruct b; [|apply mo_insert, sp_none; now left]. pose proof (split_strip r) as Hs. destruct (split_tail_exclamation r). now apply mo_insert.
    + assert (Hn : ~ starts_dot (t :: r)) by (intros (sp & r' & H); inversion H; subst; specialize (Hd bool (fun _ => true) false); discriminate).
      rewrite Hrep by exact Hn. apply mo_replace; [exact Hn|]. destruct b; [apply split_strip|apply sp_none; now left].
Qed.
Lemma strip_unique b ts l1 e1 l2 e2 : strip b ts l1 e1 -> strip b ts l2 e2 -> l1 = l2 /\ e1 = e2.
Proof.
  assert (Hx : forall m l sp, m ++ [TPunct "!" sp] = l -> (b = false \/ ~ ends_bang l) -> b = true -> False) by (intros m l sp <- [->|Hn] Hb; [discriminate|apply Hn; now exists m, sp]).
  intros H1 H2. destruct H1 as [l sp Hb|l Hl]; inversion H2 as [l' sp' Hb' He|l' Hl' He]; subst.
  - apply app_inj_tail in He. destruct He as [-> _]. auto.
  - exfalso. eapply Hx; eauto.
  - exfalso. eapply Hx; eauto.
  - auto.
Qed.
Lemma method_unique b ts m1 m2 : method_of b ts m1 -> method_of b ts m2 -> m1 = m2.
Proof.
  intros H1 H2. destruct H1 as [dot ts body exc H1|ts body exc Hd H1]; inversion H2 as [dot' ts' body' exc' H3|ts' body' exc' Hd' H3]; subst.
  - destruct (strip_unique _ _ _ _ _ _ H1 H3) as [-> ->]. reflexivity.
  - exfalso. apply Hd'. now exists dot, ts.
  - exfalso. apply Hd. now exists dot', ts'.
  - destruct (strip_unique _ _ _ _ _ _ H1 H3) as [-> ->]. reflexivity.
Qed.
Lemma parse_method_spec b ts m : method_of b ts m <-> m = parse_method b ts.
Proof. split; [intros H; eapply method_unique; [exact H|apply parse_method_ok]|intros ->; apply parse_method_ok]. Qed.
Lemma parse_method_bang b ts : m_exc (parse_method b ts) = true <-> b = true /\ ends_bang ts.
Proof.
  assert (Hs : forall l l' e, strip b l l' e -> (e = true <-> b = true /\ ends_bang l)).
  { intros l l' e [l0 sp Hb|l0 Hl]; [split; [intros _; split; [exact Hb|now exists l0, sp]|reflexivity]|]. split; [discriminate|]. intros [Hb He]. destruct Hl as [Hl|Hl]; [congruence|contradiction]. }
  destruct (parse_method_ok b ts) as [dot ts body exc H|ts body exc Hd H]; cbn [m_exc]; rewrite (Hs _ _ _ H); [|reflexivity].
  split; intros [Hb (l & sp & He)]; (split; [exact Hb|]).
  - exists (TPunct "." dot :: l), sp. rewrite He. reflexivity.
  - destruct l as [|x l]; [discriminate|]. inversion He; subst. now exists l, sp.
Qed.
