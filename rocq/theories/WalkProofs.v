(** What happens at every position of an expansion.  *)
From Coq Require Import String Ascii Bool Arith Lia List.
From Verif Require Import Base Tokens Method MethodSpec Paths Context Flavor Attrs Syntax SyntaxInd Render Walker RootAttr FlavorSpec FlavorTomlProofs MapFacts RenderSpec RenderProofs AttrSpec AttrProofs
  SiteSpec ProgSpec SettingSpec WalkSpec WalkFacts BareProofs SiteProofs AccountProofs SettingProofs.
Import ListNotations.
Open Scope string_scope.
Open Scope list_scope.

(** * The decisions of the model in the words of the specification *)
Lemma end_of_iff p x : path_is_end_of p x = true <-> exists l s, p_segs p = l ++ [s] /\ seg_id s = x.
Proof.
  unfold path_is_end_of. split.
  - destruct (rev (p_segs p)) as [|s r] eqn:E; [discriminate|]. intros H. apply String.eqb_eq in H. exists (rev r), s. split; [|exact H].
    rewrite <- (rev_involutive (p_segs p)), E. reflexivity.
  - intros (l & s & Hp & <-). rewrite Hp, rev_app_distr. cbn. apply String.eqb_refl.
Qed.
Lemma ends_iff p ids : existsb (path_is_end_of p) ids = true <-> ends_in p ids.
Proof.
  rewrite existsb_exists. unfold ends_in. split.
  - intros (x & Hx & H). apply end_of_iff in H. destruct H as (l & s & Hp & <-). eauto.
  - intros (l & s & Hp & Hi). exists (seg_id s). split; [exact Hi|]. apply end_of_iff. eauto.
Qed.
Lemma seen_idem e : seen (seen e) = seen e.
Proof. induction e; try reflexivity. cbn [seen]. assumption. Qed.
Lemma seen_not_hook e h o r : seen e <> EHook h o r.
Proof. induction e; try discriminate. cbn [seen]. assumption. Qed.
Lemma call_path_iff e p : call_path e = Some p <-> exists a a2 sp es cs, visible e = ECall a (EPath a2 p) sp es cs.
Proof.
  unfold call_path, visible. destruct (seen e) as [] eqn:Es; try (split; [discriminate|intros (? & ? & ? & ? & ? & ?); discriminate]).
  match goal with |- context [seen ?g] => destruct (seen g) as [] eqn:Ef end; split; intros H; try discriminate; try (destruct H as (? & ? & ? & ? & ? & H); inversion H; subst; reflexivity); inversion H; subst; eauto 8.
Qed.
Lemma calls_iff e ids : calls (visible e) ids <-> exists p, call_path e = Some p /\ existsb (path_is_end_of p) ids = true.
Proof.
  unfold calls. split.
  - intros (a & a2 & p & sp & es & cs & He & Hp). exists p. split; [apply call_path_iff; eauto 8|apply ends_iff, Hp].
  - intros (p & Hc & Hp). apply call_path_iff in Hc. destruct Hc as (a & a2 & sp & es & cs & He). exists a, a2, p, sp, es, cs.
    split; [exact He|apply ends_iff, Hp].
Qed.
Lemma calls_dec e ids : calls (visible e) ids \/ ~ calls (visible e) ids.
Proof.
  destruct (call_path e) as [p|] eqn:Ec.
  - destruct (existsb (path_is_end_of p) ids) eqn:Ex; [left; apply calls_iff; eauto|right; intros H; apply calls_iff in H].
    destruct H as (q & Hq & Hx). congruence.
  - right. intros H. apply calls_iff in H. destruct H as (q & Hq & _). congruence.
Qed.

Section Decisions.
  Variable f : fcore.
  Variable tr : list step.
  Variable c : ctx.
  Hypothesis He : in_effect f tr c.

  Lemma skipped_iff : is_skipped c = skipped tr.
  Proof.
    unfold is_skipped. rewrite (ie_skip _ _ _ He). destruct (skip_all_holds tr) eqn:Ea; [symmetry; apply skip_all_skipped, Ea|]. destruct (skipped tr); reflexivity.
  Qed.
  Lemma target_iff k : is_hook_target c k = match k with Question => sw_question | Return => sw_return | TailExpr => sw_tail end (the_targets f tr).
  Proof. unfold is_hook_target. rewrite (ie_targets _ _ _ He). destruct k; reflexivity. Qed.
  Lemma fallible_iff : return_type_is_result c = true <-> fallible f tr.
  Proof.
    unfold return_type_is_result, fallible. rewrite <- (ie_returns _ _ _ He), <- (ie_results _ _ _ He).
    destruct (fval (cx_fn c)) as [[s|o t n]|]; cbn [fn_info_is_result option_map].
    - unfold return_type_is_result_inner. destruct (sg_out s) as [|p|]; split; try discriminate; try (intros (q & Hq & _); discriminate).
      + intros H. apply ends_iff in H. eauto.
      + intros (q & Hq & H). inversion Hq; subst. apply ends_iff, H.
    - unfold return_type_is_result_inner. destruct o as [|p|]; split; try discriminate; try (intros (q & Hq & _); discriminate).
      + intros H. apply ends_iff in H. eauto.
      + intros (q & Hq & H). inversion Hq; subst. apply ends_iff, H.
    - split; [discriminate|]. intros (q & Hq & _). discriminate.
  Qed.
  Lemma check_iff e t nt : target_call_check c e = (t, nt) -> (t = true <-> calls (visible e) (the_tails f tr)) /\ (nt = true <-> calls (visible e) (the_ignores f tr)).
  Proof.
    unfold target_call_check. rewrite !calls_iff, <- (ie_tails _ _ _ He), <- (ie_ignores _ _ _ He). destruct (call_path e) as [p|]; intros H; inversion H; subst.
    - unfold path_is_hook_call_like_err, path_is_not_hook_call_like_ok. split; (split; [eauto|intros (q & Hq & Hx); inversion Hq; subst; exact Hx]).
    - split; (split; [discriminate|intros (q & Hq & _); discriminate]).
  Qed.
  Lemma eligible_iff k e : negb (is_skipped c) && eligible c k e = true <-> counted f tr k (visible e).
  Proof.
    unfold counted. rewrite skipped_iff, andb_true_iff, negb_true_iff.
    destruct k as [| |fn]; cbn [eligible]; [tauto| |].
    - unfold ret_eligible. destruct (target_call_check c e) as [t nt] eqn:Et. apply check_iff in Et. destruct Et as [<- Hn].
      rewrite orb_true_iff, andb_true_iff, negb_true_iff, fallible_iff, <- Hn. destruct nt; intuition congruence.
    - unfold tail_eligible. destruct (target_call_check c e) as [t nt] eqn:Et. apply check_iff in Et. destruct Et as [<- Hn].
      rewrite orb_true_iff, !andb_true_iff, negb_true_iff, fallible_iff, <- Hn. destruct nt; intuition congruence.
  Qed.
  Lemma rule_iff k e : negb (is_skipped c) && eligible c k e && is_hook_target c (kind_of k) = true <-> rule f tr k (visible e).
  Proof.
    rewrite andb_true_iff, eligible_iff, target_iff. unfold rule, question_rule, return_rule, tail_rule, counted. destruct k; cbn [kind_of]; tauto.
  Qed.
End Decisions.

(** * Values that keep their form *)
Lemma bang_step env f : no_bang env f -> forall l es, node_events env l es -> forall m, last_of ev_method es = Some m -> m_exc m = false.
Proof.
  intros (Hc & Hf & Hl) l es H. induction H as [|a l e es Hh Hr He IH|a l es Hh Hn He IH]; intros m Hm; [discriminate| |auto].
  unfold last_of in *. cbn [map last_some] in Hm. destruct (last_some (map ev_method es)) as [m'|] eqn:El; [inversion Hm; subst; apply IH; reflexivity|].
  assert (Hg : forall v g, flavor_named env v g -> m_exc (fl_method g) = false) by (intros v g (nm & _ & H1); eapply Hl; exact H1).
  destruct Hr as [Hr|Hr]; inversion Hr; subst; cbn [ev_method] in Hm; try discriminate; inversion Hm; subst; eauto.
  match goal with H : method_of _ _ _ |- _ => rewrite Hc in H; inversion H as [? ? ? ? Hs|? ? ? ? Hs]; subst; inversion Hs; subst; try discriminate; reflexivity end.
Qed.
Lemma bang_trail env f fr tr : no_bang env f -> trail env fr tr -> m_exc (the_method f tr) = false.
Proof.
  intros Hb Ht. induction Ht as [|x y fr tr Hs Ht IH]; [apply Hb|]. unfold the_method in *. inversion Hs; subst; cbn [innermost]; try exact IH.
  destruct (last_of ev_method es) eqn:El; [|exact IH]. eapply bang_step; eassumption.
Qed.

Section Form.
  Variable E : env.
  Variable f : fcore.
  Local Notation croot := (ctx_new f).
  Lemma try_kept ov c a e0 sp cnt e' cnt' fr : no_bang (ev_attr E) f -> walk_expr E ov c (ETry a e0 sp) cnt = Ok (e', cnt') -> enters E croot ov c (ETry a e0 sp) fr ->
    exists a' e1, e' = ETry a' e1 sp.
  Proof.
    intros Hb H He. apply try_Ok in H. destruct H as (s & c1 & e1 & cnt1 & Hh & _ & _ & H). cbv zeta in *.
    destruct (enters_now E croot ov c _ fr a _ _ _ He eq_refl Hh) as (Hc1 & _ & _).
    apply at_trail in Hc1. destruct Hc1 as (tr & Ht & _ & Hie).
    destruct (_ && _); [|eauto]. destruct H as (r & H & _). rewrite (ie_method _ _ _ Hie), (bang_trail _ _ _ _ Hb Ht) in H. eauto.
  Qed.
  Lemma form_kept e e' : walked E croot e e' -> keeps_form E f e -> forall ids, calls (visible e') ids <-> calls e ids.
  Proof.
    intros (ov & c & cnt & cnt' & fr & H & Hw & Hov & He) Hk ids.
    assert (Hself : forall x, (forall a g sp es cs, x <> ECall a g sp es cs) -> seen x = x -> ~ calls (visible x) ids).
    { intros x Hx Hs (a & a2 & p & sp & es & cs & Hv & _). unfold visible in Hv. rewrite Hs in Hv. destruct x; try discriminate. eapply Hx. reflexivity. }
    assert (Hsrc : (forall a g sp es cs, e <> ECall a g sp es cs) -> ~ calls e ids).
    { intros Hx (a & a2 & p & sp & es & cs & Hv & _). eapply Hx, Hv. }
    destruct e; try (exfalso; eapply written_self; [exact Hw|reflexivity]).
    all: match type of H with
         | walk_expr _ _ _ (ECall _ _ _ _ _) _ = _ => idtac
         | walk_expr _ _ _ (ETry _ _ _) _ = _ => idtac
         | walk_expr _ _ _ (EReturn _ _ ?o) _ = _ => idtac
         | _ => wcbn E H; winv; (split; intros Hc; exfalso; revert Hc; [apply Hself; [discriminate|reflexivity]|apply Hsrc; discriminate])
         end.
    - (* call *)
      wcbn E H. winv. destruct Hk as [Hk|Hk]; cbn [plain] in Hk.
      + assert (Hwf : written (subs e)) by (cbn [subs] in Hw; rewrite !written_app in Hw; tauto).
        assert (Hp : (exists a2 p, e = EPath a2 p) \/ (forall a2 p, e <> EPath a2 p)) by (destruct e; try (right; discriminate); left; eauto).
        destruct Hp as [(a2 & p & ->)|Hp].
        * wcbn E H1. winv. unfold calls, visible. cbn [seen]. split; intros (? & ? & q & ? & ? & ? & Hq & Hx); inversion Hq; subst; eauto 10.
        * split; intros Hc; exfalso.
          -- destruct Hc as (? & ? & q & ? & ? & ? & Hq & _). unfold visible in Hq. cbn [seen] in Hq. inversion Hq as [[Ha Hf Hs Hes Hcs]].
             assert (Hsx : seen x = x /\ (forall a2 p, x <> EPath a2 p)).
             { destruct e; try discriminate Hk; try (exfalso; eapply written_self; [exact Hwf|reflexivity]); try (exfalso; eapply Hp; reflexivity).
               all: match type of H1 with
                    | walk_expr _ _ _ (EReturn _ _ ?o) _ = _ => destruct o; [apply return_Ok in H1; destruct H1 as (? & ? & ? & ? & _ & _ & _ & H1); cbv zeta in H1;
                        destruct (_ && _) in H1; [destruct H1 as (? & -> & _)|subst]|wcbn E H1; winv]
                    | _ => wcbn E H1; winv
                    end; split; try reflexivity; discriminate. }
             destruct Hsx as [Hsx Hnp]. rewrite Hsx in Hf. eapply Hnp, Hf.
          -- destruct Hc as (? & ? & q & ? & ? & ? & Hq & _). inversion Hq; subst. eapply Hp. reflexivity.
      + pose proof (enters_now E croot ov c _ fr a _ _ _ He eq_refl H0) as (Hc1 & _ & _).
        assert (Hwf : written (subs e)) by (cbn [subs] in Hw; rewrite !written_app in Hw; tauto).
        assert (Hsx : (exists a2 a3 p, e = EPath a2 p /\ x = EPath a3 p) \/ ((forall a2 p, e <> EPath a2 p) /\ seen x = x /\ (forall a2 p, x <> EPath a2 p))).
        { destruct e; try (exfalso; eapply written_self; [exact Hwf|reflexivity]).
          all: match type of H1 with
               | walk_expr _ _ _ (EPath _ _) _ = _ => left; wcbn E H1; winv; eauto
               | walk_expr _ _ _ (ETry _ _ _) _ = _ => right; eapply try_kept in H1; [destruct H1 as (? & ? & ->)|exact Hk|apply enters_none; exact Hc1]; repeat split; discriminate
               | walk_expr _ _ _ (EReturn _ _ ?o) _ = _ => right; destruct o; [apply return_Ok in H1; destruct H1 as (? & ? & ? & ? & _ & _ & _ & H1); cbv zeta in H1;
                   destruct (_ && _) in H1; [destruct H1 as (? & -> & _)|subst]|wcbn E H1; winv]; repeat split; discriminate
               | _ => right; wcbn E H1; winv; repeat split; discriminate
               end. }
        destruct Hsx as [(a2 & a3 & p & -> & ->)|(Hp & Hsx & Hnp)].
        * unfold calls, visible. cbn [seen]. split; intros (? & ? & q & ? & ? & ? & Hq & Hx); inversion Hq; subst; eauto 10.
        * split; intros Hc; exfalso; destruct Hc as (? & ? & q & ? & ? & ? & Hq & _).
          -- unfold visible in Hq. cbn [seen] in Hq. inversion Hq as [[Ha Hf Hs Hes Hcs]]. rewrite Hsx in Hf. eapply Hnp, Hf.
          -- inversion Hq; subst. eapply Hp. reflexivity.
    - (* return *)
      assert (Hx : exists a' o', e' = EReturn a' sp o').
      { destruct e; [apply return_Ok in H; destruct H as (? & ? & ? & ? & _ & _ & _ & H); cbv zeta in H; destruct (_ && _) in H; [destruct H as (? & -> & _)|subst]; eauto|].
        wcbn E H. winv. eauto. }
      destruct Hx as (a' & o' & ->). split; intros Hc; exfalso; revert Hc; [apply Hself; [discriminate|reflexivity]|apply Hsrc; discriminate].
    - (* try *)
      destruct Hk as [Hk|Hk]; [discriminate|]. eapply try_kept in H; [|exact Hk|exact He]. destruct H as (a' & e1 & ->).
      split; intros Hc; exfalso; revert Hc; [apply Hself; [discriminate|reflexivity]|apply Hsrc; discriminate].
  Qed.
  Lemma counted_kept tr k e e' : walked E croot e e' -> keeps_form E f e -> (counted f tr k (visible e') <-> counted f tr k e).
  Proof. intros H Hk. pose proof (form_kept _ _ H Hk) as Hf. unfold counted. destruct k; rewrite ?Hf; tauto. Qed.
  Lemma rule_kept tr k e e' : walked E croot e e' -> keeps_form E f e -> (rule f tr k (visible e') <-> rule f tr k e).
  Proof. intros H Hk. pose proof (form_kept _ _ H Hk) as Hf. unfold rule, question_rule, return_rule, tail_rule. destruct k; rewrite ?Hf; tauto. Qed.
End Form.

(** * Positions *)
Lemma seq_app_at a d d2 b : b = a + d -> seq a d ++ seq b d2 = seq a (d + d2).
Proof. intros ->. symmetry. apply seq_app. Qed.
Section Positions.
  Variable E : env.
  Variable f : fcore.
  Local Notation croot := (ctx_new f).
  (** what is known of a position and its image *)
  Inductive treated (n : counter) (s s' : site) (n' : counter) : Prop :=
  | tr_live : forall c tr, trail (ev_attr E) (s_frames s) tr -> reached f tr = true -> in_effect f tr c -> s_kind s' = s_kind s -> s_span s' = s_span s ->
      walked E croot (s_target s) (s_target s') -> expect E c n s s' n' -> treated n s s' n'
  | tr_dead : unreached (ev_attr E) f (s_frames s) -> s_kind s' = s_kind s -> s_span s' = s_span s ->
      s_target s' = s_target s -> s_hook s' = None -> n' = n -> treated n s s' n'.
  Inductive treats : counter -> list site -> list site -> counter -> Prop :=
  | ts_nil : forall n, treats n [] [] n
  | ts_cons : forall n s s' n1 l l' n2, treated n s s' n1 -> treats n1 l l' n2 -> treats n (s :: l) (s' :: l') n2.
  Lemma refine_treats n l l' n' : refine E croot n l l' n' -> treats n l l' n'.
  Proof.
    induction 1 as [|c s s' n n1 l l' n2 Hc Hk Hs Hw Hx HR IH|s s' n l l' n2 Hb Hk Hs Ht Hh HR IH]; [constructor| |].
    - econstructor; [|exact IH]. apply at_trail in Hc. destruct Hc as (tr & H1 & H2 & H3). eapply tr_live; eassumption.
    - econstructor; [|exact IH]. apply tr_dead; auto. apply (blocked_unreached E f _ Hb).
  Qed.
  Lemma expands_treats it out : expands E f it out -> source it -> exists n, treats counter0 (item_sites [] it) (item_sites [] out) n.
  Proof.
    intros (n & H) Hs. exists n. apply refine_treats. destruct (refine_all E croot) as (_ & _ & HI & _). eapply HI; [exact H|exact Hs|constructor].
  Qed.
  Lemma treats_length n l l' n' : treats n l l' n' -> length l' = length l.
  Proof. induction 1; cbn [length]; congruence. Qed.
  Lemma treats_nth n l l' n' : treats n l l' n' -> forall i s s', nth_error l i = Some s -> nth_error l' i = Some s' ->
    exists n1 n2, treats n (firstn i l) (firstn i l') n1 /\ treated n1 s s' n2 /\ treats n2 (skipn (S i) l) (skipn (S i) l') n'.
  Proof.
    induction 1 as [|n s s' n1 l l' n2 Ht HT IH]; intros i x x' Hx Hx'; [destruct i; discriminate|]. destruct i as [|i].
    - cbn in Hx, Hx'. inversion Hx; inversion Hx'; subst. exists n, n1. split; [constructor|]. auto.
    - cbn in Hx, Hx'. destruct (IH _ _ _ Hx Hx') as (m1 & m2 & H1 & H2 & H3). exists m1, m2. split; [|auto]. cbn [firstn]. econstructor; eassumption.
  Qed.
  Lemma treats_app n a b l' n' : treats n (a ++ b) l' n' -> exists a' b' n1, l' = a' ++ b' /\ treats n a a' n1 /\ treats n1 b b' n'.
  Proof.
    revert n l'. induction a as [|s a IH]; intros n l' H; cbn [app] in H; [exists [], l', n; repeat split; [constructor|exact H]|].
    inversion H as [|? ? s' n1 ? l2 ? Ht HT]; subst. destruct (IH _ _ HT) as (a' & b' & m & -> & H1 & H2). exists (s' :: a'), b', m.
    split; [reflexivity|]. split; [econstructor; eassumption|exact H2].
  Qed.
  Lemma position_treated it out s s' : expands E f it out -> source it -> position it out s s' -> exists n n', treated n s s' n'.
  Proof.
    intros H Hs (i & H1 & H2). destruct (expands_treats _ _ H Hs) as (n & HT). destruct (treats_nth _ _ _ _ HT _ _ _ H1 H2) as (n1 & n2 & _ & Ht & _). eauto.
  Qed.
  (** every position has an image *)
  Lemma position_total it out s : expands E f it out -> source it -> In s (item_sites [] it) -> exists s', position it out s s'.
  Proof.
    intros H Hs Hin. destruct (expands_treats _ _ H Hs) as (n & HT). apply treats_length in HT. apply In_nth_error in Hin. destruct Hin as (i & Hi).
    assert (Hl : i < length (item_sites [] out)) by (rewrite HT; apply nth_error_Some; congruence).
    apply nth_error_Some in Hl. destruct (nth_error (item_sites [] out) i) as [s'|] eqn:Ei; [|contradiction]. exists s', i. auto.
  Qed.
  Lemma position_onto it out s' : expands E f it out -> source it -> In s' (item_sites [] out) -> exists s, position it out s s'.
  Proof.
    intros H Hs Hin. destruct (expands_treats _ _ H Hs) as (n & HT). apply treats_length in HT. apply In_nth_error in Hin. destruct Hin as (i & Hi).
    assert (Hl : i < length (item_sites [] it)) by (rewrite <- HT; apply nth_error_Some; congruence).
    apply nth_error_Some in Hl. destruct (nth_error (item_sites [] it) i) as [s|] eqn:Ei; [|contradiction]. exists s, i. auto.
  Qed.

  (** ** The rule *)
  Lemma treated_unreached n s s' n' : treated n s s' n' -> unreached (ev_attr E) f (s_frames s) -> s_hook s' = None.
  Proof.
    intros [c tr Ht Hr He Hk Hsp Hw Hx|Hu Hk Hsp Htg Hh Hn] Hur; [|exact Hh]. rewrite (unreached_not _ _ _ _ Hur Ht) in Hr. discriminate.
  Qed.
  Lemma treated_rule n s s' n' tr : treated n s s' n' -> trail (ev_attr E) (s_frames s) tr ->
    (hooked s' <-> reached f tr = true /\ rule f tr (s_kind s) (visible (s_target s'))).
  Proof.
    intros [c tr' Ht Hr He Hk Hsp Hw [Hn Hx]|Hu Hk Hsp Htg Hh Hn] Ht2; unfold hooked.
    - rewrite <- (trail_unique _ _ _ _ Ht Ht2). rewrite <- (rule_iff f tr' c He (s_kind s)). destruct (_ && is_hook_target c _).
      + destruct Hx as (r & -> & _). intuition discriminate.
      + rewrite Hx. intuition discriminate.
    - rewrite Hh, (unreached_not _ _ _ _ Hu Ht2). intuition discriminate.
  Qed.
  Lemma treated_walked n s s' n' : treated n s s' n' -> s_target s' = s_target s \/ walked E croot (s_target s) (s_target s').
  Proof. intros []; auto. Qed.
  Lemma treated_rule_source n s s' n' tr : treated n s s' n' -> trail (ev_attr E) (s_frames s) tr -> s_kind s = KTry \/ keeps_form E f (s_target s) ->
    (hooked s' <-> reached f tr = true /\ rule f tr (s_kind s) (s_target s)).
  Proof.
    intros H Ht Hk. rewrite (treated_rule _ _ _ _ _ H Ht). destruct Hk as [Hk|Hk]; [rewrite Hk; reflexivity|].
    destruct H as [c tr' Ht' Hr He Hk' Hsp Hw Hx|Hu Hk' Hsp Htg Hh Hn].
    - now rewrite (rule_kept E f tr (s_kind s) _ _ Hw Hk).
    - rewrite (unreached_not _ _ _ _ Hu Ht). intuition discriminate.
  Qed.
  (** ** The hook *)
  Lemma treated_made n s s' n' h r : treated n s s' n' -> s_hook s' = Some (h, r) ->
    exists tr, trail (ev_attr E) (s_frames s) tr /\ reached f tr = true /\ made_at E f tr s s' h r /\ h_count h = get_count (kind_of (s_kind s)) n' /\
               n' = count_up (kind_of (s_kind s)) n.
  Proof.
    intros [c tr Ht Hr He Hk Hsp Hw [Hn Hx]|Hu Hk Hsp Htg Hh Hn] Hs; [|congruence].
    exists tr. split; [exact Ht|]. split; [exact Hr|]. destruct (_ && is_hook_target c _) eqn:Ec; [|congruence].
    destruct Hx as (r' & Hx & Hren). rewrite Hs in Hx. inversion Hx; subst h r'. clear Hx.
    apply andb_true_iff in Ec. destruct Ec as [Ec _]. rewrite Ec in Hn. split; [|split; [reflexivity|exact Hn]].
    constructor; cbn [h_kind h_ctx h_span h_source h_consumed]; try reflexivity; try assumption. rewrite (ie_method _ _ _ He). reflexivity.
  Qed.

  (** ** Counting *)
  Lemma count_same k n : get_count k (count_up k n) = S (get_count k n).
  Proof. destruct k; reflexivity. Qed.
  Lemma count_other k k' n : k <> k' -> get_count k' (count_up k n) = get_count k' n.
  Proof. destruct k, k'; try reflexivity; intros H; now contradiction H. Qed.
  Lemma kind_dec (k k' : kind) : {k = k'} + {k <> k'}.
  Proof. decide equality. Qed.
  Lemma treated_count n s s' n' k m l : treated n s s' n' -> k = Question \/ keeps_form E f (s_target s) -> tally (ev_attr E) f k l m ->
    exists d, tally (ev_attr E) f k (s :: l) (d + m) /\ get_count k n' = get_count k n + d.
  Proof.
    intros [c tr Ht Hr He Hk Hsp Hw [Hn Hx]|Hu Hk Hsp Htg Hh Hn] Hkeep HT.
    - destruct (kind_dec (kind_of (s_kind s)) k) as [Hkd|Hkd].
      + destruct (negb (is_skipped c) && eligible c (s_kind s) (s_target s')) eqn:Ee.
        * exists 1. split; [|subst n' k; rewrite count_same; lia]. eapply ta_yes; try eassumption.
          apply (eligible_iff f tr c He) in Ee. destruct Hkeep as [Hq|Hq]; [|eapply counted_kept; eassumption].
          unfold counted in *. destruct (s_kind s); cbn [kind_of] in Hkd; try congruence.
        * exists 0. split; [|subst n'; lia]. eapply ta_no; [exact Ht| |exact HT]. intros (_ & _ & Hc).
          assert (Hc' : counted f tr (s_kind s) (visible (s_target s'))).
          { destruct Hkeep as [Hq|Hq]; [|eapply counted_kept; eassumption]. unfold counted in *. destruct (s_kind s); cbn [kind_of] in Hkd; try congruence. }
          apply (eligible_iff f tr c He) in Hc'. congruence.
      + exists 0. split; [|subst n'; destruct (negb (is_skipped c) && _); [rewrite (count_other _ _ _ Hkd)|]; lia]. eapply ta_no; [exact Ht| |exact HT]. tauto.
    - exists 0. split; [|subst n'; lia]. apply ta_unreached; assumption.
  Qed.
  Lemma treats_count n l l' n' k : treats n l l' n' -> k = Question \/ Forall (fun s => keeps_form E f (s_target s)) l ->
    exists m, tally (ev_attr E) f k l m /\ get_count k n' = get_count k n + m.
  Proof.
    induction 1 as [|n s s' n1 l l' n2 Ht HT IH]; intros Hk; [exists 0; split; [constructor|lia]|].
    destruct IH as (m & Hm & Hc). { destruct Hk as [Hk|Hk]; [auto|]. inversion Hk; auto. }
    destruct (treated_count _ _ _ _ k m l Ht) as (d & Hd & Hc2); [destruct Hk as [Hk|Hk]; [auto|inversion Hk; auto]|exact Hm|].
    exists (d + m). split; [exact Hd|lia].
  Qed.
  Lemma treats_count_seen n l l' n' k : treats n l l' n' -> exists m, tally (ev_attr E) f k (map as_seen (combine l l')) m /\ get_count k n' = get_count k n + m.
  Proof.
    induction 1 as [|n s s' n1 l l' n2 Ht HT IH]; [exists 0; split; [constructor|lia]|]. destruct IH as (m & Hm & Hc). cbn [combine map].
    destruct Ht as [c tr Ht Hr He Hk Hsp Hw [Hn Hx]|Hu Hk Hsp Htg Hh Hn].
    - destruct (kind_dec (kind_of (s_kind s)) k) as [Hkd|Hkd].
      + destruct (negb (is_skipped c) && eligible c (s_kind s) (s_target s')) eqn:Ee.
        * exists (S m). split; [|subst n1 k; rewrite Hc, count_same; lia]. eapply ta_yes; try eassumption. cbn [as_seen s_kind s_target]. apply (eligible_iff f tr c He). exact Ee.
        * exists m. split; [|subst n1; lia]. eapply ta_no; [exact Ht| |exact Hm]. cbn [as_seen s_kind s_target]. intros (_ & _ & Hcd). apply (eligible_iff f tr c He) in Hcd. congruence.
      + exists m. split; [|subst n1; destruct (negb (is_skipped c) && _); [rewrite (count_other _ _ _ Hkd) in Hc|]; lia]. eapply ta_no; [exact Ht| |exact Hm]. cbn [as_seen s_kind]. tauto.
    - exists m. split; [|subst n1; lia]. apply ta_unreached; assumption.
  Qed.
  Lemma tally_unique env k l m : tally env f k l m -> forall m', tally env f k l m' -> m = m'.
  Proof.
    assert (TU : forall fr t t', trail env fr t -> trail env fr t' -> t = t') by (intros fr t t'; apply (trail_unique (mk_env env (fun _ => None) (fun _ => "")))).
    assert (UN : forall fr t, unreached env f fr -> trail env fr t -> reached f t = false) by (intros fr t; apply (unreached_not (mk_env env (fun _ => None) (fun _ => "")))).
    induction 1 as [|s tr l n Hk Ht Hr Hc HT IH|s tr l n Ht Hn HT IH|s l n Hu HT IH]; intros m' H'; inversion H' as [|? tr' ? ? Hk' Ht' Hr' Hc' HT'|? tr' ? ? Ht' Hn' HT'|? ? ? Hu' HT']; subst; auto;
      exfalso; try (rewrite (TU _ _ _ Ht Ht') in *; tauto).
    - rewrite (UN _ _ Hu' Ht) in Hr. discriminate.
    - rewrite (UN _ _ Hu Ht') in Hr'. discriminate.
  Qed.
  (** counts never go down; after a hook they are at least its count *)
  Lemma treated_mono n s s' n' k : treated n s s' n' -> get_count k n <= get_count k n'.
  Proof.
    intros [c tr Ht Hr He Hk Hsp Hw [Hn Hx]|Hu Hk Hsp Htg Hh Hn]; subst n'; [|lia]. destruct (negb (is_skipped c) && _); [|lia].
    destruct (kind_dec (kind_of (s_kind s)) k) as [<-|Hd]; [rewrite count_same; lia|rewrite count_other by assumption; lia].
  Qed.
  Lemma treats_mono n l l' n' k : treats n l l' n' -> get_count k n <= get_count k n'.
  Proof. induction 1 as [|n s s' n1 l l' n2 Ht HT IH]; [lia|]. pose proof (treated_mono _ _ _ _ k Ht). lia. Qed.
  Lemma treats_order n l l' n' : treats n l l' n' -> forall i j s1 s2 s1' s2' h1 h2 r1 r2, i < j ->
    nth_error l i = Some s1 -> nth_error l' i = Some s1' -> nth_error l j = Some s2 -> nth_error l' j = Some s2' ->
    s_hook s1' = Some (h1, r1) -> s_hook s2' = Some (h2, r2) -> h_kind h1 = h_kind h2 -> h_count h1 < h_count h2.
  Proof.
    intros HT i j s1 s2 s1' s2' h1 h2 r1 r2 Hij H1 H1' H2 H2' Hh1 Hh2 Hk.
    destruct (treats_nth _ _ _ _ HT _ _ _ H1 H1') as (m1 & m2 & _ & Ht1 & HT2).
    assert (Hsk : forall (A : Type) (x : list A), nth_error (skipn (S i) x) (j - S i) = nth_error x j).
    { intros A x. rewrite <- (firstn_skipn (S i) x) at 2. destruct (le_lt_dec (length x) (S i)) as [Hl|Hl].
      - rewrite skipn_all2, app_nil_r by lia. rewrite (proj2 (nth_error_None (firstn (S i) x) j)) by (rewrite firstn_length; lia). destruct (j - S i); reflexivity.
      - rewrite nth_error_app2 by (rewrite firstn_length; lia). rewrite firstn_length. f_equal. lia. }
    destruct (treats_nth _ _ _ _ HT2 (j - S i) s2 s2') as (m3 & m4 & HT3 & Ht2 & _); [rewrite Hsk; exact H2|rewrite Hsk; exact H2'|].
    destruct (treated_made _ _ _ _ _ _ Ht1 Hh1) as (t1 & _ & _ & M1 & C1 & N1). destruct (treated_made _ _ _ _ _ _ Ht2 Hh2) as (t2 & _ & _ & M2 & C2 & N2).
    apply md_kind in M1, M2. pose proof (treats_mono _ _ _ _ (kind_of (s_kind s1)) HT3) as Hm. assert (Hkk : kind_of (s_kind s2) = kind_of (s_kind s1)) by congruence.
    rewrite C1, C2, Hkk. rewrite N2, Hkk, count_same. lia.
  Qed.
  (** the hooks of a kind, in order, when its target is switched on *)
  Definition hooks_of_kind (k : kind) (l : list hook) : list hook := filter (fun h => kind_eqb (h_kind h) k) l.
  Lemma kind_eqb_iff a b : kind_eqb a b = true <-> a = b.
  Proof. destruct a, b; cbn; intuition discriminate. Qed.
  Lemma treats_numbers n l l' n' k : treats n l l' n' ->
    (forall s tr, In s l -> kind_of (s_kind s) = k -> trail (ev_attr E) (s_frames s) tr -> on (the_targets f tr) k = true) ->
    map h_count (hooks_of_kind k (site_hooks l')) = seq (S (get_count k n)) (get_count k n' - get_count k n).
  Proof.
    induction 1 as [|n s s' n1 l l' n2 Ht HT IH]; intros Hon; [rewrite Nat.sub_diag; reflexivity|].
    assert (IH' := IH (fun s tr H => Hon s tr (or_intror H))). pose proof (treats_mono _ _ _ _ k HT) as Hm. pose proof (treated_mono _ _ _ _ k Ht) as Hm1.
    change (site_hooks (s' :: l')) with (site_hooks ([s'] ++ l')). rewrite site_hooks_app. unfold hooks_of_kind. rewrite filter_app, map_app. fold (hooks_of_kind k (site_hooks l')). rewrite IH'.
    assert (Hgo : map h_count (filter (fun h => kind_eqb (h_kind h) k) (site_hooks [s'])) = seq (S (get_count k n)) (get_count k n1 - get_count k n)).
    { unfold site_hooks. cbn [flat_map]. rewrite app_nil_r. destruct (s_hook s') as [[h r]|] eqn:Eh.
      - destruct (treated_made _ _ _ _ _ _ Ht Eh) as (tr & Htr & Hr & M & C & N). pose proof (md_kind _ _ _ _ _ _ _ M) as Hk. cbn [filter].
        destruct (kind_eqb (h_kind h) k) eqn:Ek.
        + apply kind_eqb_iff in Ek. rewrite Hk in Ek. cbn [map]. rewrite C, Ek, N, Ek, count_same. replace (S (get_count k n) - get_count k n) with 1 by lia. reflexivity.
        + assert (Hd : kind_of (s_kind s) <> k) by (intros Hd; rewrite <- Hk in Hd; apply kind_eqb_iff in Hd; congruence).
          rewrite N, count_other by exact Hd. rewrite Nat.sub_diag. reflexivity.
      - cbn [filter map]. destruct Ht as [c tr Htr Hr He Hk Hsp Hw [Hn Hx]|Hu Hk Hsp Htg Hh Hn]; [|subst; rewrite Nat.sub_diag; reflexivity].
        destruct (negb (is_skipped c) && eligible c (s_kind s) (s_target s')) eqn:Ee; [|subst; rewrite Nat.sub_diag; reflexivity].
        destruct (kind_dec (kind_of (s_kind s)) k) as [Hd|Hd]; [|subst; rewrite count_other by exact Hd; rewrite Nat.sub_diag; reflexivity].
        cbn [andb] in Hx. assert (Hh : is_hook_target c (kind_of (s_kind s)) = true).
        { rewrite (target_iff f tr c He). rewrite Hd. specialize (Hon s tr (or_introl eq_refl) Hd Htr). unfold on in Hon. destruct k; exact Hon. }
        rewrite Hh in Hx. destruct Hx as (r & Hx & _). congruence. }
    rewrite Hgo, seq_app_at by lia. f_equal. lia.
  Qed.
End Positions.
