(** Proofs about hooq.toml: inheritance, order of iteration, acceptance.  *)
From Coq Require Import String Ascii Bool Arith Lia Permutation List.
From Verif Require Import Base Tokens Method MethodSpec MethodProofs Paths Context Flavor TomlStore RootAttr MapFacts RenderProofs FlavorSpec FlavorNameProofs.
Import ListNotations.
Open Scope string_scope.
Open Scope list_scope.

(** ** hook_targets words *)
Ltac eqbs := repeat match goal with |- context [String.eqb ?a ?b] => destruct (String.eqb_spec a b); subst end.
Lemma switch_add_spec s w :
  match switch_add s w with
  | Some w' => target_word s /\ forall k, on w' k = true <-> on w k = true \/ word_for k s
  | None => ~ target_word s
  end.
Proof.
  unfold switch_add.
  destruct (String.eqb_spec s "?") as [->|N1]; [split; [exists Question; right; now left|]; intros []; unfold word_for; simpl; intuition (try discriminate; auto)|].
  destruct (String.eqb_spec s "question") as [->|N2]; [split; [exists Question; right; now right|]; intros []; unfold word_for; simpl; intuition (try discriminate; auto)|].
  simpl orb; cbn iota.
  destruct (String.eqb_spec s "return") as [->|N3]; [split; [exists Return; now right|]; intros []; unfold word_for; simpl; intuition (try discriminate; auto)|].
  destruct (String.eqb_spec s "tail_expr") as [->|N4]; [split; [exists TailExpr; right; now left|]; intros []; unfold word_for; simpl; intuition (try discriminate; auto)|].
  destruct (String.eqb_spec s "tail expr") as [->|N5]; [split; [exists TailExpr; right; auto|]; intros []; unfold word_for; simpl; intuition (try discriminate; auto)|].
  destruct (String.eqb_spec s "tailexpr") as [->|N6]; [split; [exists TailExpr; right; auto|]; intros []; unfold word_for; simpl; intuition (try discriminate; auto)|].
  destruct (String.eqb_spec s "tailExpr") as [->|N7]; [split; [exists TailExpr; right; auto|]; intros []; unfold word_for; simpl; intuition (try discriminate; auto)|].
  simpl orb; cbn iota.
  destruct (String.eqb_spec s "all") as [->|N8]; [split; [exists Question; now left|]; intros []; unfold word_for; simpl; intuition (try discriminate; auto)|].
  intros (k & [H|H]); [tauto|]. destruct k; intuition.
Qed.
Lemma switch_from_ok l : forall w w', switch_from l w = inl w' ->
  Forall target_word l /\ forall k, on w' k = true <-> on w k = true \/ exists s, In s l /\ word_for k s.
Proof.
  induction l as [|s l IH]; intros w w' H; simpl in H.
  - injection H as <-. split; [constructor|]. intros k. split; [now left|]. intros [H|(s & [] & _)]; exact H.
  - pose proof (switch_add_spec s w) as Hs. destruct (switch_add s w) as [w1|]; [|discriminate]. destruct Hs as [Ht Hs].
    destruct (IH _ _ H) as [HF Hk]. split; [constructor; assumption|]. intros k. rewrite Hk, Hs. split.
    + intros [[A|A]|(x & A & B)]; [now left|right; exists s; split; [now left|exact A]|right; exists x; split; [now right|exact B]].
    + intros [A|(x & [->|A] & B)]; [now left; left|left; now right|right; eauto].
Qed.
Lemma switch_from_err l : forall w s, switch_from l w = inr s <->
  exists pre post, l = pre ++ s :: post /\ Forall target_word pre /\ ~ target_word s.
Proof.
  induction l as [|x l IH]; intros w s; simpl.
  - split; [discriminate|]. intros (pre & post & H & _). destruct pre; discriminate.
  - pose proof (switch_add_spec x w) as Hs. destruct (switch_add x w) as [w1|].
    + rewrite IH. destruct Hs as [Ht _]. split.
      * intros (pre & post & -> & HF & Hn). exists (x :: pre), post. split; [reflexivity|]. split; [constructor; assumption|exact Hn].
      * intros (pre & post & E & HF & Hn). destruct pre as [|y pre]; [injection E as -> ->; tauto|].
        injection E as -> ->. inversion HF; subst. exists pre, post. auto.
    + split.
      * intros H; injection H as <-. exists [], l. auto.
      * intros (pre & post & E & HF & Hn). destruct pre as [|y pre]; [injection E as -> ->; reflexivity|].
        injection E as -> ->. inversion HF; subst. tauto.
Qed.
Lemma switch_ok l w : switch_try_from l = inl w <-> targets_of l w.
Proof.
  unfold switch_try_from, targets_of. split.
  - intros H. apply switch_from_ok in H. destruct H as [HF Hk]. split; [exact HF|]. intros k. rewrite Hk.
    split; [intros [H|H]; [destruct k; discriminate|exact H]|now right].
  - intros [HF Hk]. destruct (switch_from l (mk_switch false false false)) as [w'|s] eqn:E.
    + pose proof (switch_from_ok _ _ _ E) as [_ Hk']. f_equal.
      assert (Hall : forall k, on w' k = on w k).
      { intros k. apply eq_true_iff_eq. rewrite Hk, Hk'. split; [intros [H|H]; [destruct k; discriminate|exact H]|now right]. }
      pose proof (Hall Question); pose proof (Hall Return); pose proof (Hall TailExpr). destruct w, w'; simpl in *; subst; reflexivity.
    + apply switch_from_err in E. destruct E as (pre & post & -> & _ & Hn). apply Forall_app in HF. destruct HF as [_ HF].
      inversion HF; tauto.
Qed.
Lemma switch_total l : Forall target_word l -> exists w, switch_try_from l = inl w.
Proof.
  intros HF. destruct (switch_try_from l) as [w|s] eqn:E; [eauto|]. apply switch_from_err in E.
  destruct E as (pre & post & -> & _ & Hn). apply Forall_app in HF. destruct HF as [_ HF]. inversion HF; tauto.
Qed.

(** ** tail_expr_idents *)
Lemma strip_bang_spec s : strip_bang s = if banged s then Some (unbang s) else None.
Proof.
  destruct s as [|c r]; [reflexivity|]. simpl. destruct (Ascii.eqb_spec c "!") as [->|H]; [reflexivity|].
  destruct c as [[] [] [] [] [] [] [] []]; try reflexivity. congruence.
Qed.
Lemma split_include_spec l : split_include l = (plain_names l, bang_names l).
Proof.
  induction l as [|s l IH]; [reflexivity|]. simpl. rewrite IH, strip_bang_spec. unfold plain_names, bang_names. simpl.
  destruct (banged s); reflexivity.
Qed.

(** ** Lists of results *)
Lemma mapR_ok {A B} (f : A -> res B) l : forall r, mapR f l = Ok r -> Forall2 (fun x y => f x = Ok y) l r.
Proof.
  induction l as [|x l IH]; intros r H; cbn [mapR] in H; [injection H as <-; constructor|].
  apply bindR_Ok in H. destruct H as (y & H1 & H). apply bindR_Ok in H. destruct H as (ys & H2 & H). injection H as <-.
  constructor; [exact H1|apply IH, H2].
Qed.
Lemma mapR_total {A B} (f : A -> res B) l : Forall (fun x => exists y, f x = Ok y) l -> exists r, mapR f l = Ok r.
Proof.
  induction 1 as [|x l (y & Hy) _ (r & IH)]; [exists []; reflexivity|]. exists (y :: r). cbn [mapR]. rewrite Hy. simpl. rewrite IH. reflexivity.
Qed.
Lemma mapR_no_panic {A B} (f : A -> res B) l m : (forall x m, f x <> Panic m) -> mapR f l <> Panic m.
Proof.
  intros Hf. induction l as [|x l IH]; cbn [mapR]; [discriminate|]. destruct (f x) as [y| |] eqn:E; simpl; try discriminate; [|apply Hf in E; destruct E].
  destruct (mapR f l); simpl; try discriminate. exact IH.
Qed.

Section Apply.
  Variables (PP : string -> option path) (PT PE : string -> option (list tt)) (consume : bool).
  Notation apply_table := (apply_table PP PT PE consume).
  Notation update_table := (update_table PP PT PE consume).
  Notation update_inner := (update_flavor_inner PP PT PE consume).
  Notation settled := (settled PT PE consume).
  Notation traits_set := (traits_set PP).
  Notation good_tcore := (good_tcore PP PT PE).
  Notation good_table := (good_table PP PT PE).
  Notation good_doc := (good_doc PP PT PE).

  Definition bind_res (kv : string * string) : res (string * list tt) :=
    bindR (opt_res (ErrParse "bindings") (PE (snd kv))) (fun ts => Ok (fst kv, ts)).

  Lemma bindings_ok l bs : mapR bind_res l = Ok bs ->
    Forall2 (fun kv kt => fst kv = fst kt /\ PE (snd kv) = Some (snd kt)) l bs.
  Proof.
    intros H. apply mapR_ok in H. induction H as [|kv kt l bs H _ IH]; constructor; [|exact IH].
    unfold bind_res in H. destruct (PE (snd kv)); [|discriminate]. simpl in H. injection H as <-. auto.
  Qed.
  Lemma bindings_get l bs k : Forall2 (fun kv kt => fst kv = fst kt /\ PE (snd kv) = Some (snd kt)) l bs ->
    match mget k l with Some s => exists ts, PE s = Some ts /\ mget k bs = Some ts | None => mget k bs = None end.
  Proof.
    induction 1 as [|[k1 s] [k2 ts] l bs [H1 H2] _ IH]; [reflexivity|]. simpl in *. subst k2.
    destruct (String.eqb k k1); [exists ts; auto|exact IH].
  Qed.
  Lemma bindings_keys l (bs : list (string * list tt)) : Forall2 (fun kv kt => fst kv = fst kt /\ PE (snd kv) = Some (snd kt)) l bs -> keys bs = keys l.
  Proof. induction 1 as [|? ? ? ? [H1 H2] _ IH]; simpl; [reflexivity|]. unfold keys in *. simpl. congruence. Qed.

  Lemma apply_ok t f c : NoDup (keys (tb_bindings t)) -> apply_table t f = Ok c -> settled t f c /\ traits_set t c.
  Proof.
    intros Hnd H. unfold Flavor.apply_table in H.
    apply bindR_Ok in H. destruct H as (tr & H1 & H). apply bindR_Ok in H. destruct H as (m & H2 & H).
    apply bindR_Ok in H. destruct H as (w & H3 & H). apply bindR_Ok in H. destruct H as (bs & H4 & H). injection H as <-.
    unfold FlavorSpec.settled, FlavorSpec.traits_set, opt_setting. cbn [fl_method fl_targets fl_tails fl_ignores fl_results fl_macros fl_bindings fl_traits].
    split; [repeat split|].
    - destruct (tb_method t) as [s|]; [|injection H2 as <-; reflexivity]. unfold opt_res in H2.
      destruct (PT s) as [ts|] eqn:E; [|discriminate]. simpl in H2. injection H2 as <-. exists ts. split; [reflexivity|apply parse_method_ok].
    - destruct (tb_targets t) as [l|]; [|injection H3 as <-; reflexivity].
      destruct (switch_try_from l) as [w'|] eqn:E; [|discriminate]. injection H3 as <-. apply switch_ok, E.
    - destruct (tb_tails t) as [l|]; simpl; [now rewrite split_include_spec|reflexivity].
    - unfold ignore_setting. destruct (tb_tails t) as [l|]; [rewrite split_include_spec; simpl|];
        destruct (tb_ignores t) as [i|]; simpl; try reflexivity; destruct (bang_names l); reflexivity.
    - destruct (tb_results t); reflexivity.
    - destruct (tb_macros t); reflexivity.
    - intros k. rewrite mget_mextend. apply bindings_ok in H4. pose proof (bindings_get _ _ k H4) as Hg.
      rewrite last_get_nodup by (fold (keys bs); rewrite (bindings_keys _ _ H4); exact Hnd).
      destruct (mget k (tb_bindings t)) as [s|].
      + destruct Hg as (ts & Ha & Hb). exists ts. rewrite Hb. auto.
      + rewrite Hg. reflexivity.
    - apply mapR_ok in H1. induction H1 as [|s p l tr H _ IH]; [reflexivity|]. simpl. unfold opt_res in H. destruct (PP s); [|discriminate].
      injection H as <-. f_equal. exact IH.
  Qed.
  Lemma apply_good t f : (exists c, apply_table t f = Ok c) <-> good_tcore t.
  Proof.
    split.
    - intros (c & H). unfold Flavor.apply_table in H.
      apply bindR_Ok in H. destruct H as (tr & H1 & H). apply bindR_Ok in H. destruct H as (m & H2 & H).
      apply bindR_Ok in H. destruct H as (w & H3 & H). apply bindR_Ok in H. destruct H as (bs & H4 & _).
      repeat split.
      + apply mapR_ok in H1. induction H1 as [|s p l r H _ IH]; constructor; [|exact IH]. unfold opt_res in H. destruct (PP s); [discriminate|discriminate].
      + intros s E. rewrite E in H2. unfold opt_res in H2. destruct (PT s); discriminate.
      + intros l E. rewrite E in H3. destruct (switch_try_from l) as [w'|] eqn:Es; [|discriminate]. apply switch_ok in Es. apply Es.
      + apply bindings_ok in H4. induction H4 as [|kv kt l bs' [_ H] _ IH]; constructor; [rewrite H; discriminate|exact IH].
    - intros (H1 & H2 & H3 & H4). unfold Flavor.apply_table.
      destruct (mapR_total (fun s => opt_res (ErrParse "trait_uses") (PP s)) (tb_traits t)) as (tr & E1).
      { eapply Forall_impl; [|exact H1]. intros s Hs. unfold opt_res. destruct (PP s) eqn:Ex; [eauto|exfalso; apply Hs; exact Ex]. }
      rewrite E1. cbn [bindR]. destruct (tb_method t) as [s|]; [pose proof (H2 s eq_refl) as Hp; destruct (PT s) eqn:Ex; [cbn [opt_res bindR]|exfalso; apply Hp; reflexivity]|cbn [bindR]].
      all: destruct (mapR_total bind_res (tb_bindings t)) as (bs & E4);
        [eapply Forall_impl; [|exact H4]; intros kv Hs; unfold bind_res, opt_res; destruct (PE (snd kv)) eqn:Ex2; [simpl; eauto|exfalso; apply Hs; exact Ex2]|].
      all: destruct (tb_targets t) as [l0|]; [destruct (switch_total l0 (H3 l0 eq_refl)) as (w & Ew); rewrite Ew|]; cbn [bindR]; unfold bind_res in E4; rewrite E4; cbn [bindR]; eauto.
  Qed.
  Lemma apply_no_panic t f m : apply_table t f <> Panic m.
  Proof.
    unfold Flavor.apply_table. intros H.
    destruct (mapR (fun s => opt_res (ErrParse "trait_uses") (PP s)) (tb_traits t)) as [tr| |m1] eqn:E1; simpl in H; try discriminate.
    - destruct (match tb_method t with None => Ok (fl_method f) | Some s => bindR (opt_res (ErrParse "method") (PT s)) (fun ts => Ok (parse_method consume ts)) end) as [mm| |] eqn:E2; simpl in H; try discriminate.
      + destruct (match tb_targets t with None => Ok (fl_targets f) | Some l => match switch_try_from l with inl w => Ok w | inr e => Err (ErrHookTargets e) end end) as [w| |] eqn:E3; simpl in H; try discriminate.
        * destruct (mapR (fun kv => bindR (opt_res (ErrParse "bindings") (PE (snd kv))) (fun ts => Ok (fst kv, ts))) (tb_bindings t)) as [bs| |] eqn:E4; simpl in H; try discriminate.
          apply mapR_no_panic in E4; [exact E4|]. intros x mm0. unfold opt_res. destruct (PE (snd x)); discriminate.
        * destruct (tb_targets t) as [l|]; [destruct (switch_try_from l); discriminate|discriminate].
      + destruct (tb_method t) as [s|]; [unfold opt_res in E2; destruct (PT s); discriminate|discriminate].
    - apply mapR_no_panic in E1; [exact E1|]. intros x mm0. unfold opt_res. destruct (PP x); discriminate.
  Qed.

  (** ** The loop *)
  Lemma update_table_eq t subs name base fs :
    update_table (FTable t subs) name base fs =
    update_one PP PT PE consume (fun fs0 base0 => update_inner subs base0 fs0) name t base fs.
  Proof.
    simpl. unfold update_one. destruct (String.eqb name ""); [reflexivity|]. destruct (String.eqb name "empty"); [reflexivity|].
    destruct (Flavor.apply_table PP PT PE consume t _) as [c| |]; [|reflexivity|reflexivity]. simpl.
    match goal with |- bindR (?loop subs ?acc) _ = bindR (update_inner subs ?b _) _ =>
      assert (E : forall l a, loop l a = update_inner l b a) end.
    { induction l as [|[n s] r IH]; intros a; [reflexivity|]. simpl.
      destruct (Flavor.update_table PP PT PE consume s n _ a) as [acc'| |]; simpl; [apply IH|reflexivity|reflexivity]. }
    rewrite E. reflexivity.
  Qed.
  Definition start (n : string) (base : flavor) (fs : smap flavor) : flavor := match mget n fs with Some f => f | None => base end.
  Lemma update_table_ok t subs name base fs fs' :
    update_table (FTable t subs) name base fs = Ok fs' <->
    name <> "" /\ name <> "empty" /\ exists c s, apply_table t (f_core (start name base fs)) = Ok c /\
      update_inner subs (Flavor c (f_subs (start name base fs))) (f_subs (start name base fs)) = Ok s /\
      fs' = minsert name (Flavor c s) fs.
  Proof.
    rewrite update_table_eq. unfold update_one. fold (start name base fs).
    destruct (String.eqb_spec name ""); [split; [discriminate|tauto]|].
    destruct (String.eqb_spec name "empty"); [split; [discriminate|tauto]|]. split.
    - intros H. apply bindR_Ok in H. destruct H as (c & H1 & H). apply bindR_Ok in H. destruct H as (s & H2 & H). injection H as <-.
      split; [assumption|]. split; [assumption|]. exists c, s. auto.
    - intros (_ & _ & c & s & H1 & H2 & ->). rewrite H1. simpl. rewrite H2. reflexivity.
  Qed.

  Section FtInd.
    Variable P : ftable -> Prop.
    Hypothesis H : forall t subs, Forall (fun ns => P (snd ns)) subs -> P (FTable t subs).
    Fixpoint ftable_ind' (x : ftable) : P x :=
      match x with
      | FTable t subs => H t subs ((fix go l : Forall (fun ns => P (snd ns)) l :=
          match l with [] => Forall_nil _ | x :: r => Forall_cons x (ftable_ind' (snd x)) (go r) end) subs)
      end.
  End FtInd.

  (** acceptance *)
  Lemma inner_accept l : Forall (fun ns => forall n base fs, (exists r, update_table (snd ns) n base fs = Ok r) <-> n <> "" /\ n <> "empty" /\ good_table (snd ns)) l ->
    forall base fs, (exists r, update_inner l base fs = Ok r) <-> good_doc l.
  Proof.
    induction 1 as [|[n s] l Hx HF IH]; intros base fs; [split; [constructor|eexists; reflexivity]|]. cbn [update_flavor_inner]. split.
    - intros (r & H). apply bindR_Ok in H. destruct H as (a & H1 & H2). constructor.
      + cbn [fst snd]. apply (Hx n base fs). eauto.
      + apply (IH base a). eauto.
    - intros H. inversion H as [|? ? Hg HF2]; subst. cbn [fst snd] in *. apply (Hx n base fs) in Hg. destruct Hg as (a & Ha).
      rewrite Ha. simpl. apply (IH base a). exact HF2.
  Qed.
  Lemma table_accept : forall T n base fs, (exists r, update_table T n base fs = Ok r) <-> n <> "" /\ n <> "empty" /\ good_table T.
  Proof.
    induction T as [t subs IH] using ftable_ind'. intros n base fs. split.
    - intros (r & H). apply update_table_ok in H. destruct H as (H1 & H2 & c & s & H3 & H4 & _). split; [exact H1|]. split; [exact H2|].
      constructor; [apply (apply_good t (f_core (start n base fs))); eauto|]. eapply inner_accept; [exact IH|]. eauto.
    - intros (H1 & H2 & Hg). inversion Hg as [? ? Ht HF]; subst. apply (apply_good t (f_core (start n base fs))) in Ht. destruct Ht as (c & Hc).
      destruct (proj2 (inner_accept subs IH (Flavor c (f_subs (start n base fs))) (f_subs (start n base fs))) HF) as (s & Hs).
      eexists. apply update_table_ok. split; [exact H1|]. split; [exact H2|]. exists c, s. split; [exact Hc|]. split; [exact Hs|reflexivity].
  Qed.
  Lemma doc_accept l base fs : (exists r, update_inner l base fs = Ok r) <-> good_doc l.
  Proof. apply inner_accept. apply Forall_forall. intros x _. apply table_accept. Qed.

  Lemma inner_np l m : Forall (fun ns => forall n base fs, update_table (snd ns) n base fs <> Panic m) l -> forall base fs, update_inner l base fs <> Panic m.
  Proof.
    induction 1 as [|[n s] l Hx HF IH]; intros base fs; [discriminate|]. cbn [update_flavor_inner]. specialize (Hx n base fs). cbn [snd] in Hx.
    destruct (update_table s n base fs); simpl; [apply IH|discriminate|exact Hx].
  Qed.
  Lemma table_no_panic m : forall T n base fs, update_table T n base fs <> Panic m.
  Proof.
    induction T as [t subs IH] using ftable_ind'. intros n base fs. rewrite update_table_eq. unfold update_one. fold (start n base fs).
    destruct (String.eqb n ""); [discriminate|]. destruct (String.eqb n "empty"); [discriminate|].
    pose proof (apply_no_panic t (f_core (start n base fs)) m) as Ha.
    destruct (Flavor.apply_table PP PT PE consume t (f_core (start n base fs))) as [c| |]; simpl; [|discriminate|congruence].
    pose proof (inner_np subs m IH (Flavor c (f_subs (start n base fs))) (f_subs (start n base fs))) as Hi.
    destruct (update_inner subs (Flavor c (f_subs (start n base fs))) (f_subs (start n base fs))); simpl; [discriminate|discriminate|congruence].
  Qed.
  Lemma doc_no_panic l base fs m : update_inner l base fs <> Panic m.
  Proof. apply inner_np. apply Forall_forall. intros x _. apply table_no_panic. Qed.

  (** the result, name by name *)
  Lemma inner_get : forall l base fs fs', NoDup (keys l) -> update_inner l base fs = Ok fs' -> forall n,
    match mget n l with
    | None => mget n fs' = mget n fs
    | Some (FTable t subs) =>
        exists c s, apply_table t (f_core (start n base fs)) = Ok c /\
          update_inner subs (Flavor c (f_subs (start n base fs))) (f_subs (start n base fs)) = Ok s /\
          mget n fs' = Some (Flavor c s)
    end.
  Proof.
    induction l as [|[k T] l IH]; intros base fs fs' Hnd H n; [injection H as <-; reflexivity|].
    cbn [update_flavor_inner] in H. apply bindR_Ok in H. destruct H as (a & H1 & H2). inversion Hnd as [|? ? Hk Hnd2]; subst.
    pose proof (IH base a fs' Hnd2 H2 n) as Hn. destruct T as [t subs].
    apply update_table_ok in H1. destruct H1 as (_ & _ & c & s & Ha & Hs & ->). cbn [mget].
    destruct (String.eqb_spec n k) as [->|Hne].
    - replace (mget k l) with (@None ftable) in Hn by (symmetry; apply mget_none; exact Hk).
      rewrite mget_minsert, String.eqb_refl in Hn. exists c, s. auto.
    - assert (E : mget n (minsert k (Flavor c s) fs) = mget n fs).
      { rewrite mget_minsert. destruct (String.eqb_spec n k); [congruence|reflexivity]. }
      unfold start in *. rewrite E in Hn. exact Hn.
  Qed.

  (** ** Inheritance *)
  Lemma wf_sub d n t subs : wf_doc d -> mget n d = Some (FTable t subs) -> NoDup (keys (tb_bindings t)) /\ wf_doc subs.
  Proof.
    intros [_ HF] H. apply mget_in in H. rewrite Forall_forall in HF. specialize (HF _ H). cbn [snd] in HF. inversion HF; subst. split; [assumption|split; assumption].
  Qed.
  (** a top-level table *)
  Lemma top_settled d base fs fs' n t : wf_doc d -> update_inner d base fs = Ok fs' -> table_at d [n] t ->
    exists f, at_path fs' [n] f /\ settled t (f_core (start n base fs)) (f_core f) /\ traits_set t (f_core f).
  Proof.
    intros Hw H Ht. inversion Ht as [? ? ? subs Hm|? ? ? ? ? ? ? Hx]; subst; [|inversion Hx].
    pose proof (inner_get d base fs fs' (proj1 Hw) H n) as Hg. rewrite Hm in Hg. destruct Hg as (c & s & Ha & _ & E).
    exists (Flavor c s). split; [econstructor; [exact E|constructor]|]. apply apply_ok; [|exact Ha]. apply (wf_sub d n t subs Hw Hm).
  Qed.
  Lemma start_top_sub n r n2 base fs c :
    start_top fs base (n :: r ++ [n2]) = start_subs (f_subs (start n base fs)) (r ++ [n2]) /\
    start_top (f_subs (start n base fs)) (Flavor c (f_subs (start n base fs))) (r ++ [n2]) = start_subs (f_subs (start n base fs)) (r ++ [n2]).
  Proof.
    unfold start. split; [simpl; destruct (mget n fs); reflexivity|].
    destruct r as [|x r]; simpl; [destruct (mget n2 _); reflexivity|]. destruct (mget x _); reflexivity.
  Qed.
  Lemma start_top_cons n r base fs c : r <> [] ->
    start_top fs base (n :: r) = start_top (f_subs (start n base fs)) (Flavor c (f_subs (start n base fs))) r.
  Proof.
    intros Hr. destruct r as [|x r] using rev_ind; [congruence|]. destruct (start_top_sub n r x base fs c) as [E1 E2]. congruence.
  Qed.
  Lemma table_at_cons_inv d n l t : l <> [] -> table_at d (n :: l) t -> exists t0 subs, mget n d = Some (FTable t0 subs) /\ table_at subs l t.
  Proof. intros Hl H. inversion H; subst; [congruence|eauto]. Qed.
  Lemma at_path_sub st x c s p f : mget x st = Some (Flavor c s) -> at_path s p f -> at_path st (x :: p) f.
  Proof. intros E H. inversion H; subst. econstructor; [exact E|]. econstructor; eassumption. Qed.
  Lemma under_at c s p f : p <> [] -> under (Flavor c s) p f -> at_path s p f.
  Proof. intros Hp H. inversion H; subst; [congruence|]. econstructor; eassumption. Qed.
  Lemma sub_settled : forall q d base fs fs' n t, q <> [] -> wf_doc d -> update_inner d base fs = Ok fs' -> table_at d (q ++ [n]) t ->
    exists fq fp, at_path fs' q fq /\ at_path fs' (q ++ [n]) fp /\ traits_set t (f_core fp) /\
      settled t (match mget n (start_top fs base q) with Some f => f_core f | None => f_core fq end) (f_core fp).
  Proof.
    induction q as [|x q IH]; intros d base fs fs' n t Hq Hw H Ht; [congruence|].
    simpl in Ht. apply table_at_cons_inv in Ht; [|destruct q; discriminate]. destruct Ht as (t0 & subs & Hm & Ht).
    pose proof (inner_get d base fs fs' (proj1 Hw) H x) as Hg. rewrite Hm in Hg. destruct Hg as (c & s & Ha & Hs & E).
    destruct (wf_sub d x t0 subs Hw Hm) as [_ Hws].
    destruct q as [|y q].
    - destruct (top_settled subs _ _ s n t Hws Hs Ht) as (f & Hat & Hset & Htr). exists (Flavor c s), f.
      split; [econstructor; [exact E|constructor]|]. split; [eapply at_path_sub; [exact E|exact Hat]|].
      split; [exact Htr|]. simpl. unfold start in *. destruct (mget x fs) as [fx|]; destruct (mget n _); exact Hset.
    - destruct (IH subs _ _ s n t ltac:(discriminate) Hws Hs Ht) as (fq & fp & Hq1 & Hp1 & Htr & Hset). exists fq, fp.
      split; [eapply at_path_sub; [exact E|exact Hq1]|]. split; [eapply at_path_sub; [exact E|exact Hp1]|]. split; [exact Htr|].
      rewrite (start_top_cons x (y :: q) base fs c) by discriminate. exact Hset.
  Qed.
  (** an existing flavor is what its path starts from *)
  Lemma under_start : forall q f n g, under f (q ++ [n]) g -> mget n (start_subs (f_subs f) q) = Some g.
  Proof.
    induction q as [|x q IH]; intros f n g H; simpl in *.
    - inversion H as [|? ? ? ? ? ? Hm Hu]; subst. inversion Hu; subst. exact Hm.
    - inversion H as [|? ? ? ? ? ? Hm Hu]; subst. simpl. rewrite Hm. apply IH, Hu.
  Qed.
  Lemma at_start q st base n g : q <> [] -> at_path st (q ++ [n]) g -> mget n (start_top st base q) = Some g.
  Proof.
    intros Hq H. destruct q as [|x q]; [congruence|]. simpl in *. inversion H; subst.
    match goal with H : mget x st = _ |- _ => rewrite H end. apply under_start. assumption.
  Qed.
  (** flavors without a table stay as they start *)
  Lemma no_table_kept : forall q d base fs fs' n f, wf_doc d -> update_inner d base fs = Ok fs' ->
    at_path fs' (q ++ [n]) f -> ~ (exists t, table_at d (q ++ [n]) t) ->
    exists g, mget n (match q with [] => fs | _ => start_top fs base q end) = Some g /\ f_core f = f_core g.
  Proof.
    assert (Hkeep : forall q f n g, under f (q ++ [n]) g -> mget n (start_subs (f_subs f) q) = Some g) by exact under_start.
    induction q as [|x q IH]; intros d base fs fs' n f Hw H Hat Hno.
    - simpl in *. inversion Hat as [? g ? ? Hm Hu]; subst. pose proof (inner_get d base fs fs' (proj1 Hw) H n) as Hg.
      destruct (mget n d) as [[t subs]|] eqn:E; [exfalso; apply Hno; exists t; econstructor; exact E|].
      rewrite Hg in Hm. exists g. split; [exact Hm|]. inversion Hu; reflexivity.
    - simpl in Hat, Hno. inversion Hat as [? g ? ? Hm Hu]; subst. pose proof (inner_get d base fs fs' (proj1 Hw) H x) as Hg.
      destruct (mget x d) as [[t subs]|] eqn:E.
      + destruct Hg as (c & s & Ha & Hs & E2). rewrite E2 in Hm. injection Hm as <-. destruct (wf_sub d x t subs Hw E) as [_ Hws].
        assert (Hat2 : at_path s (q ++ [n]) f).
        { eapply under_at; [destruct q; discriminate|exact Hu]. }
        destruct (IH subs _ _ s n f Hws Hs Hat2) as (g & Hg1 & Hg2).
        { intros (t' & Ht'). apply Hno. exists t'. econstructor; eassumption. }
        exists g. split; [|exact Hg2]. destruct q as [|y q].
        * simpl in *. unfold start in Hg1. destruct (mget x fs); exact Hg1.
        * rewrite (start_top_cons x (y :: q) base fs c) by discriminate. exact Hg1.
      + rewrite Hg in Hm. exists f. split; [|reflexivity]. simpl. rewrite Hm. apply Hkeep, Hu.
  Qed.
  (** an existing flavor stays in place, whatever the tables *)
  Lemma existing_kept : forall p d base fs fs' f, wf_doc d -> update_inner d base fs = Ok fs' -> at_path fs p f ->
    exists f', at_path fs' p f'.
  Proof.
    intros p. induction p as [|n p IH]; intros d base fs fs' f Hw H Hat; [inversion Hat|].
    inversion Hat as [? g ? ? Hm Hu]; subst. pose proof (inner_get d base fs fs' (proj1 Hw) H n) as Hg.
    destruct (mget n d) as [[t subs]|] eqn:E.
    - destruct Hg as (c & s & Ha & Hs & E2). destruct (wf_sub d n t subs Hw E) as [_ Hws].
      destruct p as [|m p]; [exists (Flavor c s); econstructor; [exact E2|constructor]|].
      unfold start in Hs. rewrite Hm in Hs. inversion Hu as [|? ? ? ? ? ? Hm2 Hu2]; subst. simpl in Hs.
      destruct (IH subs _ _ s f Hws Hs) as (f' & Hf'); [econstructor; eassumption|]. exists f'.
      inversion Hf'; subst. econstructor; [exact E2|]. econstructor; eassumption.
    - rewrite <- Hg in Hm. exists f. econstructor; eassumption.
  Qed.

  (** ** Order of iteration *)
  Definition optrel {A} (R : A -> A -> Prop) (a b : option A) : Prop :=
    match a, b with Some x, Some y => R x y | None, None => True | _, _ => False end.
  Definition fequiv (f g : flavor) : Prop := forall p, optrel (fun a b => same_core (f_core a) (f_core b)) (descend f p) (descend g p).
  Definition mequiv (a b : smap flavor) : Prop := forall n, optrel fequiv (mget n a) (mget n b).

  Lemma same_core_refl c : same_core c c. Proof. repeat split; reflexivity. Qed.
  Lemma fequiv_refl f : fequiv f f.
  Proof. intros p. destruct (descend f p); simpl; [apply same_core_refl|exact I]. Qed.
  Lemma mequiv_refl a : mequiv a a.
  Proof. intros n. destruct (mget n a); simpl; [apply fequiv_refl|exact I]. Qed.
  Lemma fequiv_core f g : fequiv f g -> same_core (f_core f) (f_core g).
  Proof. intros H. exact (H []). Qed.
  Lemma fequiv_subs f g : fequiv f g -> mequiv (f_subs f) (f_subs g).
  Proof.
    intros H n. pose proof (H [n]) as H1. simpl in H1.
    destruct (mget n (f_subs f)) as [a|] eqn:Ea, (mget n (f_subs g)) as [b|] eqn:Eb; simpl in *; try contradiction; [|exact I].
    intros p. pose proof (H (n :: p)) as H2. simpl in H2. rewrite Ea, Eb in H2. exact H2.
  Qed.
  Lemma fequiv_mk c c' s s' : same_core c c' -> mequiv s s' -> fequiv (Flavor c s) (Flavor c' s').
  Proof.
    intros Hc Hs [|n p]; [exact Hc|]. simpl. pose proof (Hs n) as Hn. destruct (mget n s), (mget n s'); simpl in *; try contradiction; [apply Hn|exact I].
  Qed.
  Lemma mequiv_same a b : mequiv a b -> same_store a b.
  Proof.
    intros H p. destruct p as [|n p]; [split; intros f Hf; inversion Hf|]. specialize (H n). split; intros f Hf; inversion Hf as [? g ? ? Hm Hu]; subst; rewrite Hm in H.
    - destruct (mget n b) as [g'|] eqn:Eb; simpl in H; [|contradiction]. specialize (H p). apply descend_under in Hu. rewrite Hu in H.
      destruct (descend g' p) as [f'|] eqn:E; simpl in H; [|contradiction]. exists f'. split; [|exact H]. econstructor; [exact Eb|]. apply descend_under, E.
    - destruct (mget n a) as [g'|] eqn:Eb; simpl in H; [|contradiction]. specialize (H p). apply descend_under in Hu. rewrite Hu in H.
      destruct (descend g' p) as [f'|] eqn:E; simpl in H; [|contradiction]. exists f'. split; [|exact H]. econstructor; [exact Eb|]. apply descend_under, E.
  Qed.

  Lemma settled_same t t' b b' a a' : same_tcore t t' -> NoDup (keys (tb_bindings t)) -> same_core b b' ->
    settled t b a -> traits_set t a -> settled t' b' a' -> traits_set t' a' -> same_core a a'.
  Proof.
    intros (T1 & T2 & T3 & T4 & T5 & T6 & T7 & T8) Hnd (B1 & B2 & B3 & B4 & B5 & B6 & B7 & B8) (S1 & S2 & S3 & S4 & S5 & S6 & S7) Tr
      (S1' & S2' & S3' & S4' & S5' & S6' & S7') Tr'.
    unfold same_core, opt_setting in *. rewrite <- T2 in S1'. rewrite <- T3 in S2'. rewrite <- T4 in S3', S4'. rewrite <- T5 in S4'. rewrite <- T6 in S5'. rewrite <- T7 in S6'.
    repeat split.
    - unfold FlavorSpec.traits_set in *. rewrite <- T1, <- Tr in Tr'. clear - Tr'. revert Tr'. generalize (fl_traits a) as x, (fl_traits a') as y.
      induction x as [|p x IH]; intros [|q y] H; try discriminate; [reflexivity|]. injection H as -> H. f_equal. apply IH, H.
    - destruct (tb_method t); [destruct S1 as (ts & E1 & G1), S1' as (ts' & E2 & G2); rewrite E1 in E2; injection E2 as <-; eapply method_unique; eassumption|congruence].
    - destruct (tb_targets t) as [l|]; [|congruence]. apply switch_ok in S2, S2'. congruence.
    - destruct (tb_tails t); simpl in *; congruence.
    - rewrite S4, S4', B5. reflexivity.
    - destruct (tb_results t); congruence.
    - destruct (tb_macros t); congruence.
    - intros k. specialize (S7 k). specialize (S7' k). rewrite <- (mget_perm _ _ _ Hnd T8) in S7'.
      destruct (mget k (tb_bindings t)) as [s|]; [destruct S7 as (ts & E1 & ->), S7' as (ts' & E2 & ->); congruence|]. rewrite S7, S7'. apply B8.
  Qed.

  Lemma keys_f2 (d d1 : smap ftable) : Forall2 (fun a b => fst a = fst b /\ reordered (snd a) (snd b)) d d1 -> keys d = keys d1.
  Proof. unfold keys. induction 1 as [|? ? ? ? [H _] _ IH]; simpl; congruence. Qed.
  Lemma get_f2 (d d1 : smap ftable) : Forall2 (fun a b => fst a = fst b /\ reordered (snd a) (snd b)) d d1 ->
    forall n, optrel reordered (mget n d) (mget n d1).
  Proof.
    induction 1 as [|[a1 a2] [b1 b2] ? ? [H1 H2] _ IH]; intros n; [exact I|]. simpl in *. subst b1. destruct (String.eqb n a1); [exact H2|apply IH].
  Qed.
  Lemma reordered_get d d' : NoDup (keys d) -> reordered_doc d d' -> NoDup (keys d') /\ forall n, optrel reordered (mget n d) (mget n d').
  Proof.
    intros Hnd (d1 & H1 & H2). pose proof (keys_f2 _ _ H1) as Hk.
    assert (Hnd1 : NoDup (keys d1)) by (rewrite <- Hk; exact Hnd).
    split; [eapply Permutation_NoDup; [|exact Hnd1]; unfold keys; apply Permutation_map, H2|].
    intros n. rewrite <- (mget_perm _ _ _ Hnd1 H2). apply get_f2, H1.
  Qed.

  Fixpoint tsize (T : ftable) : nat := match T with FTable _ subs => S (list_sum (map (fun ns => tsize (snd ns)) subs)) end.
  Definition dsize (d : smap ftable) : nat := list_sum (map (fun ns => tsize (snd ns)) d).
  Lemma mget_size d n t subs : mget n d = Some (FTable t subs) -> dsize subs < dsize d.
  Proof.
    intros H. apply mget_in in H. induction d as [|[k T] d IH]; [destruct H|]. unfold dsize in *. simpl. destruct H as [H|H].
    - injection H as <- ->. simpl. lia.
    - specialize (IH H). lia.
  Qed.

  Lemma reordered_wf : forall T T', reordered T T' -> wf_table T -> wf_table T'.
  Proof.
    induction T as [t subs IH] using ftable_ind'. intros T' H Hw. inversion H as [? t' ? s1 s' Hc HF HP]; subst. inversion Hw as [? ? Hb Hn HFw]; subst.
    assert (Hk : NoDup (keys s1)) by (rewrite <- (keys_f2 _ _ HF); exact Hn).
    constructor.
    - destruct Hc as (_ & _ & _ & _ & _ & _ & _ & Hp). eapply Permutation_NoDup; [|exact Hb]. unfold keys. apply Permutation_map, Hp.
    - eapply Permutation_NoDup; [|exact Hk]. unfold keys. apply Permutation_map, HP.
    - eapply Permutation_Forall; [exact HP|]. clear - IH HF HFw. induction HF as [|a b l l' [_ Hr] _ IHl]; constructor.
      + inversion IH; subst. inversion HFw; subst. auto.
      + inversion IH; subst. inversion HFw; subst. auto.
  Qed.
  Lemma reordered_good : forall T T', reordered T T' -> good_table T -> good_table T'.
  Proof.
    induction T as [t subs IH] using ftable_ind'. intros T' H Hw. inversion H as [? t' ? s1 s' Hc HF HP]; subst. inversion Hw as [? ? Hb HFw]; subst.
    constructor.
    - destruct Hc as (T1 & T2 & T3 & _ & _ & _ & _ & Hp). destruct Hb as (G1 & G2 & G3 & G4). unfold FlavorSpec.good_tcore. rewrite <- T1, <- T2, <- T3.
      repeat split; try assumption. eapply Permutation_Forall; [exact Hp|exact G4].
    - eapply Permutation_Forall; [exact HP|]. clear - IH HF HFw. induction HF as [|a b l l' [E Hr] _ IHl]; constructor.
      + inversion IH; subst. inversion HFw as [|? ? (G1 & G2 & G3) _]; subst. rewrite <- E. auto.
      + inversion IH; subst. inversion HFw; subst. auto.
  Qed.
  Lemma reordered_doc_good d d' : reordered_doc d d' -> good_doc d -> good_doc d'.
  Proof.
    intros (d1 & HF & HP) H. eapply Permutation_Forall; [exact HP|]. clear HP d'. induction HF as [|a b l l' [E Hr] _ IHl]; constructor.
    - inversion H as [|? ? (G1 & G2 & G3) _]; subst. rewrite <- E. split; [exact G1|]. split; [exact G2|]. eapply reordered_good; eassumption.
    - inversion H; subst. auto.
  Qed.
  Lemma reordered_table_doc t t' s s' : reordered (FTable t s) (FTable t' s') -> same_tcore t t' /\ reordered_doc s s'.
  Proof. inversion 1; subst. split; [assumption|]. eexists; split; eassumption. Qed.

  Lemma order_gen : forall n d d' base base' fs fs' r r', dsize d < n -> wf_doc d -> reordered_doc d d' -> fequiv base base' -> mequiv fs fs' ->
    update_inner d base fs = Ok r -> update_inner d' base' fs' = Ok r' -> mequiv r r'.
  Proof.
    induction n as [|n IH]; intros d d' base base' fs fs' r r' Hn Hw Hr Hb Hf H H'; [lia|].
    destruct (reordered_get d d' (proj1 Hw) Hr) as [Hnd' Hget]. intros k.
    pose proof (inner_get d base fs r (proj1 Hw) H k) as G. pose proof (inner_get d' base' fs' r' Hnd' H' k) as G'. specialize (Hget k).
    destruct (mget k d) as [[t s]|] eqn:E, (mget k d') as [[t' s']|] eqn:E'; simpl in Hget; try contradiction.
    - destruct G as (c & x & Ga & Gs & ->), G' as (c' & x' & Ga' & Gs' & ->).
      assert (Hst : fequiv (start k base fs) (start k base' fs')).
      { unfold start. specialize (Hf k). destruct (mget k fs), (mget k fs'); simpl in Hf; try contradiction; assumption. }
      destruct (wf_sub d k t s Hw E) as [Hnb Hws].
      pose proof (reordered_wf _ _ Hget) as Hwt. assert (Hw2 : wf_table (FTable t s)).
      { destruct Hw as [_ HF]. rewrite Forall_forall in HF. exact (HF _ (mget_in _ _ _ E)). }
      specialize (Hwt Hw2). inversion Hwt as [? ? Hnb' _ _]; subst.
      destruct (apply_ok _ _ _ Hnb Ga) as [S1 T1]. destruct (apply_ok _ _ _ Hnb' Ga') as [S1' T1'].
      destruct (reordered_table_doc _ _ _ _ Hget) as [Htc Hrd].
      assert (Hcc : same_core c c') by (eapply settled_same; [exact Htc|exact Hnb|apply fequiv_core, Hst|exact S1|exact T1|exact S1'|exact T1']).
      apply fequiv_mk; [exact Hcc|]. eapply (IH s s'); [pose proof (mget_size d k t s E); lia|exact Hws|exact Hrd| | |exact Gs|exact Gs'].
      + apply fequiv_mk; [exact Hcc|apply fequiv_subs, Hst].
      + apply fequiv_subs, Hst.
    - rewrite G, G'. apply Hf.
  Qed.
  Lemma order_independent d d' base fs r : wf_doc d -> reordered_doc d d' -> update_inner d base fs = Ok r ->
    exists r', update_inner d' base fs = Ok r' /\ same_store r r'.
  Proof.
    intros Hw Hr H. assert (Hg : good_doc d') by (apply (reordered_doc_good d d' Hr), (doc_accept d base fs); eauto).
    apply (doc_accept d' base fs) in Hg. destruct Hg as (r' & H'). exists r'. split; [exact H'|]. apply mequiv_same.
    eapply (order_gen (S (dsize d)) d d'); [lia|exact Hw|exact Hr|apply fequiv_refl|apply mequiv_refl|exact H|exact H'].
  Qed.
End Apply.
