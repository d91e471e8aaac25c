(** Proofs about the store of flavors, its cache, and the root attribute.  *)
From Coq Require Import String Ascii Bool Arith Lia Permutation List.
From Verif Require Import Base Tokens Method Paths Context Flavor Attrs Syntax Walker TomlStore RootAttr MapFacts RenderProofs
  FlavorSpec FlavorNameProofs FlavorTomlProofs.
Import ListNotations.
Open Scope string_scope.
Open Scope list_scope.

(** ** Distinct names are kept distinct *)
Section Wf.
  Variables (PP : string -> option path) (PT PE : string -> option (list tt)) (consume : bool).
  Lemma forall_minsert {A} (P : A -> Prop) k v (m : smap A) : P v -> Forall (fun nf => P (snd nf)) m -> Forall (fun nf => P (snd nf)) (minsert k v m).
  Proof.
    intros Hv. induction 1 as [|[a b] m Hx HF IH]; simpl; [constructor; [exact Hv|constructor]|].
    destruct (String.eqb k a); constructor; auto.
  Qed.
  Lemma wf_minsert n f st : wf_flavor f -> wf_store st -> wf_store (minsert n f st).
  Proof. intros Hf [H1 H2]. split; [apply nodup_minsert, H1|apply forall_minsert; assumption]. Qed.
  Lemma wf_start n base fs : wf_flavor base -> wf_store fs -> wf_flavor (start n base fs).
  Proof.
    intros Hb [_ HF]. unfold start. destruct (mget n fs) as [f|] eqn:E; [|exact Hb]. rewrite Forall_forall in HF. exact (HF _ (mget_in _ _ _ E)).
  Qed.
  Lemma wf_subs f : wf_flavor f -> wf_store (f_subs f).
  Proof. inversion 1; subst. split; assumption. Qed.
  Lemma wf_mk c s : wf_store s -> wf_flavor (Flavor c s).
  Proof. intros [H1 H2]. constructor; assumption. Qed.
  Lemma inner_wf l : Forall (fun ns => forall n base fs r, wf_flavor base -> wf_store fs -> update_table PP PT PE consume (snd ns) n base fs = Ok r -> wf_store r) l ->
    forall base fs r, wf_flavor base -> wf_store fs -> update_flavor_inner PP PT PE consume l base fs = Ok r -> wf_store r.
  Proof.
    induction 1 as [|[n s] l Hx _ IH]; intros base fs r Hb Hf H; [injection H as <-; exact Hf|]. cbn [update_flavor_inner] in H.
    apply bindR_Ok in H. destruct H as (a & H1 & H2). eapply IH; [exact Hb| |exact H2]. eapply (Hx n base fs); eassumption.
  Qed.
  Lemma table_wf : forall T n base fs r, wf_flavor base -> wf_store fs -> update_table PP PT PE consume T n base fs = Ok r -> wf_store r.
  Proof.
    induction T as [t subs IH] using ftable_ind'. intros n base fs r Hb Hf H. apply update_table_ok in H.
    destruct H as (_ & _ & c & s & _ & Hs & ->). apply wf_minsert; [|exact Hf]. apply wf_mk.
    pose proof (wf_subs _ (wf_start n base fs Hb Hf)) as Hw. eapply inner_wf; [exact IH|apply wf_mk, Hw|exact Hw|exact Hs].
  Qed.
  Lemma doc_wf l base fs r : wf_flavor base -> wf_store fs -> update_flavor_inner PP PT PE consume l base fs = Ok r -> wf_store r.
  Proof. apply inner_wf. apply Forall_forall. intros x _. apply table_wf. Qed.
End Wf.

Lemma nodup_dec (l : list string) : {NoDup l} + {~ NoDup l}.
Proof.
  induction l as [|x l [IH|IH]]; [left; constructor| |right; inversion 1; tauto].
  destruct (in_dec string_dec x l) as [H|H]; [right; inversion 1; tauto|left; constructor; assumption].
Qed.
Lemma wf_leaf c : wf_flavor (Flavor c []).
Proof. repeat constructor. Qed.
Lemma wf_levels (g : string -> fcore) l : NoDup (map fst l) ->
  wf_store (map (fun nl : string * string => (fst nl, Flavor (g (snd nl)) [])) l).
Proof.
  intros H. split.
  - unfold keys. rewrite map_map. simpl. exact H.
  - apply Forall_forall. intros x Hx. apply in_map_iff in Hx. destruct Hx as (y & <- & _). apply wf_leaf.
Qed.
Lemma presets_wf ft : wf_store (preset_flavors ft).
Proof.
  assert (Hl : forall t m (b : string -> smap (list tt)) l, NoDup (map fst l) -> wf_store (map (fun nl : string * string => (fst nl, Flavor (core_with t m (b (snd nl))) [])) l)).
  { intros t m b l. apply (wf_levels (fun x => core_with t m (b x))). }
  split.
  - unfold preset_flavors. destruct (ft_log ft), (ft_anyhow ft), (ft_eyre ft), (ft_tracing ft); simpl;
      repeat (apply NoDup_cons; [simpl; intuition discriminate|]); apply NoDup_nil.
  - assert (HF : forall b (l : smap flavor), Forall (fun nf => wf_flavor (snd nf)) l -> Forall (fun nf => wf_flavor (snd nf)) (if b : bool then l else [])) by (intros []; auto).
    assert (H1 : wf_flavor (log_flavor ft)).
    { apply wf_mk, (Hl [] _ (fun x => level_binding ["log"; "Level"; x])). simpl. repeat (apply NoDup_cons; [simpl; intuition discriminate|]); apply NoDup_nil. }
    assert (H2 : wf_flavor (tracing_flavor ft)).
    { apply wf_mk, (Hl [] _ (fun x => level_binding ["tracing"; "Level"; x])). simpl. repeat (apply NoDup_cons; [simpl; intuition discriminate|]); apply NoDup_nil. }
    unfold preset_flavors. repeat (apply Forall_app; split); try apply HF; repeat (apply Forall_cons); try apply Forall_nil; simpl; try exact H1; try exact H2; apply wf_leaf.
Qed.
Lemma store_wf PP PT PE consume ft d st : store_try_from PP PT PE consume ft d = Ok st -> wf_store st.
Proof. apply doc_wf; [apply wf_leaf|apply presets_wf]. Qed.

(** ** The flavor [empty] *)
Lemma presets_empty ft : mget "empty" (preset_flavors ft) = Some (empty_flavor ft).
Proof. reflexivity. Qed.
Lemma empty_not_table PP PT PE d n T : good_doc PP PT PE d -> mget n d = Some T -> n <> "empty".
Proof. intros H E. unfold good_doc in H. rewrite Forall_forall in H. exact (proj1 (proj2 (H _ (mget_in _ _ _ E)))). Qed.
Lemma empty_kept PP PT PE consume ft d st : wf_doc d -> store_try_from PP PT PE consume ft d = Ok st -> at_path st ["empty"] (empty_flavor ft).
Proof.
  intros Hw H. unfold store_try_from, update_flavors in H.
  assert (Hg : good_doc PP PT PE d) by (eapply (doc_accept PP PT PE consume); eauto).
  pose proof (inner_get PP PT PE consume d _ _ st (proj1 Hw) H "empty") as E.
  destruct (mget "empty" d) as [T|] eqn:Em; [exfalso; exact (empty_not_table _ _ _ _ _ _ Hg Em eq_refl)|].
  rewrite presets_empty in E. econstructor; [exact E|constructor].
Qed.
Lemma empty_rejected PP PT PE consume ft d p t : table_at d p t -> In "empty" p -> ~ exists st, store_try_from PP PT PE consume ft d = Ok st.
Proof.
  intros Ht Hin He. apply doc_accept in He. revert d Ht He. induction p as [|n p IH]; intros d Ht He; [destruct Hin|].
  assert (Hm : exists t0 subs, mget n d = Some (FTable t0 subs)) by (inversion Ht; subst; eauto).
  destruct Hm as (t0 & subs & Hm). destruct Hin as [->|Hin]; [exact (empty_not_table _ _ _ _ _ _ He Hm eq_refl)|].
  inversion Ht as [|? ? t1 subs1 ? ? Hm1 Ht1]; subst; [destruct Hin|]. rewrite Hm in Hm1. injection Hm1 as <- <-.
  apply (IH Hin subs Ht1). unfold good_doc in He. rewrite Forall_forall in He. destruct (He _ (mget_in _ _ _ Hm)) as (_ & _ & Hg).
  cbn [snd] in Hg. inversion Hg; subst. assumption.
Qed.

(** ** The cache *)
Section Cache.
  Variable te : toml_env.
  Definition good (t : smap ftable) : Prop := good_doc (te_path te) (te_ts te) (te_expr te) t.
  Lemma build_good t : (exists fs, build_store te t = Ok fs) <-> good t.
  Proof. apply doc_accept. Qed.
  Lemma build_no_panic t m : build_store te t <> Panic m.
  Proof. apply doc_no_panic. Qed.

  Lemma load_store dir d st : snd (with_hooq_toml te dir d st) = snd (load te dir d st).
  Proof.
    unfold with_hooq_toml. destruct (load te dir d st) as [[[t|]|e|m] st']; reflexivity.
  Qed.
  (** one expansion changes the store only by a first good document for its own package *)
  Lemma store_step dir d st k t : mget k (snd (load te dir d st)) = Some t <->
    mget k st = Some t \/ (mget k st = None /\ k = dir /\ d = DiskToml t /\ good t).
  Proof.
    unfold load. destruct (mget dir st) as [t0|] eqn:E.
    - simpl. split; [now left|]. intros [H|(H & -> & _)]; [exact H|congruence].
    - destruct d as [| | |t1]; try (simpl; split; [now left|intros [H|(_ & _ & H & _)]; [exact H|discriminate]]).
      destruct (build_store te t1) as [fs|e|m] eqn:Eb; simpl.
      + rewrite mget_minsert. destruct (String.eqb_spec k dir) as [->|Hn].
        * rewrite E. split.
          -- intros H; injection H as <-. right. repeat split; auto. apply build_good. eauto.
          -- intros [H|(_ & _ & H & _)]; [discriminate|]. congruence.
        * split; [now left|]. intros [H|(_ & H & _)]; [exact H|congruence].
      + split; [now left|]. intros [H|(_ & _ & H & Hg)]; [exact H|]. injection H as ->. apply build_good in Hg. destruct Hg as (fs & Hg). congruence.
      + exfalso. exact (build_no_panic _ _ Eb).
  Qed.
  Lemma history_store h : forall st k t, mget k (after_history te h st) = Some t <->
    mget k st = Some t \/ (mget k st = None /\ first_good good k h t).
  Proof.
    induction h as [|[d0 k0] h IH]; intros st k t; cbn [after_history first_good].
    - split; [now left|]. intros [H|[_ []]]; exact H.
    - rewrite load_store, IH, store_step.
      assert (Hnone : mget k (snd (load te d0 k0 st)) = None <-> mget k st = None /\ ~ (exists t, k = d0 /\ k0 = DiskToml t /\ good t)).
      { destruct (mget k (snd (load te d0 k0 st))) as [t1|] eqn:E.
        - split; [discriminate|]. apply store_step in E. intros [H1 H2]. destruct E as [E|(_ & E1 & E2 & E3)]; [congruence|exfalso; eauto].
        - split; [|reflexivity]. intros _. split.
          + destruct (mget k st) eqn:E2; [|reflexivity]. assert (X : mget k (snd (load te d0 k0 st)) = Some s) by (apply store_step; now left). congruence.
          + intros (t1 & H1 & H2 & H3). destruct (mget k st) as [t2|] eqn:E2.
            * assert (X : mget k (snd (load te d0 k0 st)) = Some t2) by (apply store_step; now left). congruence.
            * assert (X : mget k (snd (load te d0 k0 st)) = Some t1) by (apply store_step; right; auto). congruence. }
      rewrite Hnone. split.
      + intros [[H|(H1 & -> & -> & H3)]|[[H1 H2] H3]]; [now left|right; split; [exact H1|left; auto]|].
        right. split; [exact H1|]. destruct k0 as [| | |t1]; try exact H3. right. split; [|exact H3]. intros [-> Hg]. apply H2. eauto.
      + intros [H|[H1 H2]]; [left; now left|]. destruct k0 as [| | |t1].
        1-3: right; split; [split; [exact H1|intros (t2 & _ & H & _); discriminate]|exact H2].
        destruct H2 as [(-> & Hg & ->)|[H2 H3]]; [left; right; auto|]. right. split; [|exact H3]. split; [exact H1|].
        intros (t2 & -> & E & Hg). injection E as <-. tauto.
  Qed.

  (** what an expansion in [dir] sees after a history *)
  Inductive outcome (h : list expansion) (dir : string) (d : disk) : res (smap flavor) -> Prop :=
  | oc_cached : forall t fs, first_good good dir h t -> build_store te t = Ok fs -> outcome h dir d (Ok fs)
  | oc_absent : (forall t, ~ first_good good dir h t) -> d = DiskAbsent -> outcome h dir d (Ok (preset_flavors (te_features te)))
  | oc_fresh : forall t fs, (forall t, ~ first_good good dir h t) -> d = DiskToml t -> build_store te t = Ok fs -> outcome h dir d (Ok fs)
  | oc_bad : forall e, (forall t, ~ first_good good dir h t) -> d <> DiskAbsent -> (forall t, d = DiskToml t -> ~ good t) -> outcome h dir d (Err e).

  Lemma cache_outcome h dir d : outcome h dir d (fst (with_hooq_toml te dir d (after_history te h []))).
  Proof.
    unfold with_hooq_toml, load. destruct (mget dir (after_history te h [])) as [t|] eqn:E.
    - apply history_store in E. destruct E as [E|[_ E]]; [discriminate|]. cbn [fst].
      assert (Hg : good t). { clear - E. induction h as [|[d0 k0] h IH]; [destruct E|]. simpl in E. destruct k0; try (apply IH, E).
        destruct E as [(_ & Hg & ->)|[_ E]]; [exact Hg|apply IH, E]. }
      apply build_good in Hg. destruct Hg as (fs & Hfs). rewrite Hfs. econstructor; eassumption.
    - assert (Hno : forall t, ~ first_good good dir h t).
      { intros t Ht. assert (X : mget dir (after_history te h []) = Some t) by (apply history_store; right; auto). congruence. }
      destruct d as [| | |t]; cbn [fst].
      + apply oc_absent; auto.
      + apply oc_bad; [exact Hno|discriminate|discriminate].
      + apply oc_bad; [exact Hno|discriminate|discriminate].
      + destruct (build_store te t) as [fs|e|m] eqn:Eb; cbn [fst].
        * rewrite Eb. eapply oc_fresh; [exact Hno|reflexivity|exact Eb].
        * apply oc_bad; [exact Hno|discriminate|]. intros t0 E0 Hg. injection E0 as <-. apply build_good in Hg. destruct Hg as (fs & Hg). congruence.
        * exfalso. exact (build_no_panic _ _ Eb).
  Qed.
  Lemma cache_no_panic h dir d m : fst (with_hooq_toml te dir d (after_history te h [])) <> Panic m.
  Proof. pose proof (cache_outcome h dir d) as H. destruct H; discriminate. Qed.

  (** expansions of other packages do not matter *)
  Lemma first_good_filter dir h t : first_good good dir h t <-> first_good good dir (filter (fun e => String.eqb (fst e) dir) h) t.
  Proof.
    induction h as [|[d0 k0] h IH]; [tauto|]. cbn [filter fst]. destruct (String.eqb_spec d0 dir) as [->|Hn].
    - cbn [first_good]. destruct k0; try exact IH. rewrite IH. tauto.
    - rewrite <- IH. cbn [first_good]. destruct k0; try tauto.
  Qed.
  Lemma cache_isolated h dir d :
    fst (with_hooq_toml te dir d (after_history te h [])) =
    fst (with_hooq_toml te dir d (after_history te (filter (fun e => String.eqb (fst e) dir) h) [])).
  Proof.
    assert (E : mget dir (after_history te h []) = mget dir (after_history te (filter (fun e => String.eqb (fst e) dir) h) [])).
    { destruct (mget dir (after_history te h [])) as [t|] eqn:E1.
      - symmetry. apply history_store in E1. apply history_store. destruct E1 as [E1|[_ E1]]; [discriminate|]. right. split; [reflexivity|]. apply first_good_filter in E1. exact E1.
      - destruct (mget dir (after_history te (filter (fun e => String.eqb (fst e) dir) h) [])) as [t|] eqn:E2; [|reflexivity].
        apply history_store in E2. destruct E2 as [E2|[_ E2]]; [discriminate|]. apply first_good_filter in E2.
        assert (X : mget dir (after_history te h []) = Some t) by (apply history_store; right; auto). congruence. }
    unfold with_hooq_toml, load. rewrite E. clear E.
    destruct (mget dir (after_history te (filter (fun e => String.eqb (fst e) dir) h) [])); [reflexivity|]. destruct d; try reflexivity.
    destruct (build_store te t) eqn:Eb; cbn [fst]; reflexivity.
  Qed.
  Lemma cached_builds h dir t t' : mget dir (after_history te h []) = Some t -> wf_doc t -> reordered_doc t t' ->
    exists fs fs', build_store te t = Ok fs /\ build_store te t' = Ok fs' /\ same_store fs fs'.
  Proof.
    intros H Hw Hr. apply history_store in H. destruct H as [H|[_ H]]; [discriminate|].
    assert (Hg : good t). { clear - H. induction h as [|[d0 k0] h IH]; [destruct H|]. simpl in H. destruct k0; try (apply IH, H).
        destruct H as [(_ & Hg & ->)|[_ H]]; [exact Hg|apply IH, H]. }
    apply build_good in Hg. destruct Hg as (fs & Hfs). destruct (order_independent _ _ _ _ _ _ _ _ _ Hw Hr Hfs) as (fs' & H1 & H2).
    exists fs, fs'. auto.
  Qed.
End Cache.

(** ** The root attribute *)
Section Root.
  Variable PPs : list tt -> option (list path).
  Lemma denotes_path v l : denotes v l -> match v with VPath p => flavor_path_of_path p = Ok l | VStr s _ => flavor_path_of_string s = Ok l | VOther _ => False end.
  Proof.
    destruct 1 as [p H|s sp l Hj HF].
    - apply path_path. auto.
    - apply string_path_splits. auto.
  Qed.
  Lemma root_loop_ok l fs ts : Forall2 arg_flavor l fs -> Forall2 (arg_traits PPs) l ts -> forall r,
    root_loop PPs l r = Ok (mk_root (ra_traits r ++ concat ts) (match last_some fs with Some x => Some x | None => ra_flavor r end)).
  Proof.
    intros H. revert ts. induction H as [|m o l fs Hm _ IH]; intros ts Ht r; inversion Ht as [|? tr ? ts' Htr Hts]; subst.
    - simpl. rewrite app_nil_r. destruct r; reflexivity.
    - cbn [root_loop last_some concat]. inversion Hm as [p HF Hne|p d toks sp|sg s sp l0 Hid Hargs Hden]; subst; inversion Htr as [|q v|sg1 d1 ts1 sp1 l1 Hid1 Ha1 Hp1]; subst.
      + cbn [root_step]. rewrite (proj2 (path_path p (p_idents p)) (conj eq_refl HF)). cbn [bindR].
        destruct (p_idents p) as [|x xs] eqn:E; [unfold p_idents in E; destruct (p_segs p); [congruence|discriminate]|].
        rewrite (IH _ Hts). cbn [ra_traits ra_flavor]. destruct (last_some fs); reflexivity.
      + cbn [root_step]. unfold path_is_ident, path_get_ident. cbn [p_lead p_segs]. rewrite Ha1, Hp1.
        replace (String.eqb (seg_id sg1) "trait_use" || String.eqb (seg_id sg1) "trait_uses") with true
          by (destruct Hid1 as [-> | ->]; reflexivity).
        cbn [bindR]. rewrite (IH _ Hts). cbn [ra_traits ra_flavor]. rewrite app_assoc. destruct (last_some fs); reflexivity.
      + cbn [root_step]. unfold path_is_ident, path_get_ident. cbn [p_lead p_segs]. rewrite Hargs, Hid. simpl String.eqb. cbn iota.
        pose proof (denotes_path _ _ Hden) as Hp. cbn in Hp. rewrite Hp. cbn [bindR]. rewrite (IH _ Hts). cbn [ra_traits ra_flavor].
        destruct (last_some fs); reflexivity.
  Qed.
  (** an accepted argument has one of the three documented forms *)
  Inductive arg_form : meta -> Prop :=
  | arf_path : forall p, Forall (fun s => seg_args s = [] /\ seg_id s <> "") (p_segs p) -> arg_form (MPath p)
  | arf_traits : forall sg d ts sp l, seg_id sg = "trait_use" \/ seg_id sg = "trait_uses" -> seg_args sg = [] -> PPs ts = Some l ->
      arg_form (MList (mk_path false [sg]) d ts sp)
  | arf_flavor : forall sg s sp l, seg_id sg = "flavor" -> seg_args sg = [] -> splits l s -> Forall (fun n => n <> "") l ->
      arg_form (MNameValue (mk_path false [sg]) (VStr s sp)).
  Lemma ident_shape p n : path_is_ident p n = true -> exists sg, p = mk_path false [sg] /\ seg_id sg = n /\ seg_args sg = [].
  Proof.
    unfold path_is_ident, path_get_ident. destruct p as [[] [|s [|s2 r]]]; simpl; try discriminate. destruct (seg_args s) eqn:E; [|discriminate].
    intros H. apply String.eqb_eq in H. exists s. auto.
  Qed.
  Lemma root_loop_forms l : forall r r', root_loop PPs l r = Ok r' -> Forall arg_form l.
  Proof.
    induction l as [|m l IH]; intros r r' H; [constructor|]. cbn [root_loop] in H. apply bindR_Ok in H. destruct H as (r1 & H1 & H2).
    constructor; [|eapply IH, H2]. destruct m as [p|p d ts sp|p v]; cbn [root_step] in H1.
    - apply bindR_Ok in H1. destruct H1 as (x & H1 & _). apply path_path in H1. constructor. apply H1.
    - destruct (path_is_ident p "trait_use" || path_is_ident p "trait_uses") eqn:E; [|discriminate].
      destruct (PPs ts) as [l0|] eqn:Ep; [|discriminate]. apply orb_true_iff in E.
      destruct E as [E|E]; apply ident_shape in E; destruct E as (sg & -> & Hid & Ha); econstructor; eauto.
    - destruct v as [q|s sp|q]; try discriminate. destruct (path_is_ident p "flavor") eqn:E; [|discriminate].
      apply ident_shape in E. destruct E as (sg & -> & Hid & Ha). apply bindR_Ok in H1. destruct H1 as (x & H1 & _).
      apply string_path_splits in H1. destruct H1 as [Hj HF]. econstructor; eauto.
  Qed.
End Root.
