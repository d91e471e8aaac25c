From Coq Require Import String Ascii Bool Arith NArith Lia Permutation Sorted List.
From Verif Require Import Base Tokens Method Paths Context Render Excerpt ExcerptSpec ExcerptProofs RenderSpec.
Import ListNotations.
Open Scope string_scope.
Open Scope list_scope.

(** ** Induction on token trees *)
Section TtInd.
  Variable P : tt -> Prop.
  Hypothesis Hi : forall s sp, P (TIdent s sp).
  Hypothesis Hp : forall c sp, P (TPunct c sp).
  Hypothesis Hl : forall l sp, P (TLit l sp).
  Hypothesis Hg : forall d ts sp, Forall P ts -> P (TGroup d ts sp).
  Fixpoint tt_ind' (t : tt) : P t :=
    match t with
    | TIdent s sp => Hi s sp
    | TPunct c sp => Hp c sp
    | TLit l sp => Hl l sp
    | TGroup d ts sp => Hg d ts sp ((fix go l : Forall P l := match l with [] => Forall_nil _ | x :: r => Forall_cons _ (tt_ind' x) (go r) end) ts)
    end.
End TtInd.

Lemma dollar_dec t : {is_dollar t} + {~ is_dollar t}.
Proof.
  destruct t as [s p|c p|l p|d ts p]; try (right; intros (q & H); discriminate).
  destruct (Ascii.eqb_spec c "$") as [->|H]; [left; exists p; reflexivity|right; intros (q & E)]. congruence.
Qed.
Lemma not_dollar_group d ts p : ~ is_dollar (TGroup d ts p).
Proof. intros (q & E). discriminate. Qed.

Lemma bindR_Ok {A B} (x : res A) (f : A -> res B) b : bindR x f = Ok b -> exists a, x = Ok a /\ f a = Ok b.
Proof. destruct x; simpl; try discriminate. eauto. Qed.

Lemma substs_filled V ts o : substs V ts o -> filled V ts o.
Proof. induction 1; constructor; assumption. Qed.
Lemma filled_substs V ts o : dollars_ok ts -> filled V ts o -> substs V ts o.
Proof.
  intros Hd H. revert Hd. induction H as [|a|name v a b r r' Hv _ IH|d ts ts' sp r r' _ IH1 _ IH2|t r r' Hn Hg _ IH]; intros Hd.
  - constructor.
  - exfalso. inversion Hd as [| | |? ? Hx]; subst. apply Hx. exists a; reflexivity.
  - inversion Hd as [|? ? ? ? Hd2| |? ? Hx]; subst; [constructor; auto|exfalso; apply Hx; exists a; reflexivity].
  - inversion Hd as [| |? ? ? ? Hd1 Hd2|? ? ? Hx]; subst; [constructor; auto|exfalso; apply Hx; do 3 eexists; reflexivity].
  - inversion Hd; subst; [exfalso; apply Hn; eexists; reflexivity|exfalso; apply Hg; do 3 eexists; reflexivity|constructor; auto].
Qed.
Lemma filled_weak V ts o : filled V ts o -> dollars_weak ts.
Proof. induction 1; constructor; assumption. Qed.

(** one step of the loop, by the shape of the stream *)
Lemma loop_punct_other grp var c p r : c <> "$"%char ->
  expand_loop grp var false (TPunct c p :: r) = bindR (expand_loop grp var false r) (fun r' => Ok (TPunct c p :: r')).
Proof. intros H. simpl. destruct (Ascii.eqb_spec c "$"); [congruence|reflexivity]. Qed.

Section Expand.
  Variable var : string -> res (list tt).
  Let V (n : string) (v : list tt) : Prop := var n = Ok v.

  Definition tt_sound (t : tt) : Prop :=
    forall d ts p, t = TGroup d ts p -> forall o, expand_loop (expand_group var) var false ts = Ok o -> filled V ts o.

  Lemma loop_sound_gen : forall n ts o, length ts <= n -> Forall tt_sound ts ->
    expand_loop (expand_group var) var false ts = Ok o -> filled V ts o.
  Proof.
    induction n as [|n IH]; intros ts o Hn HF H.
    - destruct ts; [|simpl in Hn; lia]. injection H as <-. constructor.
    - destruct ts as [|t r]; [injection H as <-; constructor|]. simpl in Hn.
      inversion HF as [|? ? Ht HFr]; subst.
      destruct (dollar_dec t) as [(p & ->)|Hnd].
      + simpl in H. destruct r as [|t2 r].
        * injection H as <-. constructor.
        * destruct t2 as [s p2|c p2|l p2|d ts2 p2]; simpl in H; try discriminate.
          apply bindR_Ok in H. destruct H as (v & Hv & H). apply bindR_Ok in H. destruct H as (r' & Hr & H).
          injection H as <-. inversion HFr as [|? ? _ HFr2]; subst.
          constructor; [exact Hv|]. exact (IH r r' ltac:(simpl in Hn; lia) HFr2 Hr).
      + destruct t as [s p|c p|l p|d ts p].
        * simpl in H. apply bindR_Ok in H. destruct H as (r' & Hr & H). injection H as <-.
          apply fi_tok; [exact Hnd|intros (? & ? & ? & ?); discriminate|exact (IH r r' ltac:(lia) HFr Hr)].
        * assert (Hc : c <> "$"%char) by (intros ->; apply Hnd; exists p; reflexivity).
          rewrite loop_punct_other in H by exact Hc.
          apply bindR_Ok in H. destruct H as (r' & Hr & H). injection H as <-.
          apply fi_tok; [exact Hnd|intros (? & ? & ? & ?); discriminate|exact (IH r r' ltac:(lia) HFr Hr)].
        * simpl in H. apply bindR_Ok in H. destruct H as (r' & Hr & H). injection H as <-.
          apply fi_tok; [exact Hnd|intros (? & ? & ? & ?); discriminate|exact (IH r r' ltac:(lia) HFr Hr)].
        * simpl in H. apply bindR_Ok in H. destruct H as (g & Hg & H). apply bindR_Ok in Hg. destruct Hg as (ts' & Hts & Hg).
          injection Hg as <-. apply bindR_Ok in H. destruct H as (r' & Hr & H). injection H as <-.
          apply fi_group; [exact (Ht d ts p eq_refl ts' Hts)|exact (IH r r' ltac:(lia) HFr Hr)].
  Qed.
  Lemma tt_sound_all t : tt_sound t.
  Proof.
    induction t as [s p|c p|l p|d ts p IH] using tt_ind'; intros d0 ts0 p0 E; try discriminate.
    injection E as <- <- <-. intros o H. exact (loop_sound_gen (length ts) ts o (le_n _) IH H).
  Qed.
  Lemma expand_sound ts o : expand_with var ts = Ok o -> filled V ts o.
  Proof.
    apply (loop_sound_gen (length ts)); [lia|]. apply Forall_forall. intros t _. apply tt_sound_all.
  Qed.

  Lemma expand_complete ts o : filled V ts o -> expand_with var ts = Ok o.
  Proof.
    unfold expand_with. induction 1 as [|a|name v a b r r' Hv _ IH|d ts ts' sp r r' _ IH1 _ IH2|t r r' Hd Hg _ IH].
    - reflexivity.
    - reflexivity.
    - simpl. rewrite (Hv : var name = Ok v). simpl. rewrite IH. reflexivity.
    - simpl. rewrite IH1. simpl. rewrite IH2. reflexivity.
    - destruct t as [s p|c p|l p|d ts p].
      + simpl. rewrite IH. reflexivity.
      + rewrite loop_punct_other; [rewrite IH; reflexivity|]. intros ->. apply Hd. exists p; reflexivity.
      + simpl. rewrite IH. reflexivity.
      + exfalso; apply Hg. do 3 eexists; reflexivity.
  Qed.

  Lemma expand_filled ts o : expand_with var ts = Ok o <-> filled V ts o.
  Proof. split; [apply expand_sound|apply expand_complete]. Qed.

  Lemma expand_exact ts o : dollars_ok ts -> (expand_with var ts = Ok o <-> substs V ts o).
  Proof. intros Hd. rewrite expand_filled. split; [apply filled_substs; exact Hd|apply substs_filled]. Qed.

  (** success *)
  Lemma expand_total ts : dollars_weak ts -> (forall n, uses n ts -> exists v, var n = Ok v) -> exists o, expand_with var ts = Ok o.
  Proof.
    intros Hd. enough (G : (forall n, uses n ts -> exists v, V n v) -> exists o, filled V ts o).
    { intros H. destruct (G H) as (o & Ho). exists o. apply expand_complete; exact Ho. }
    induction Hd as [|a|name a b r _ IH|d ts sp r _ IH1 _ IH2|t r Hnd Hng _ IH]; intros H.
    - exists []. constructor.
    - exists []. constructor.
    - destruct (H name (us_here _ _ _ _)) as (v & Hv). destruct IH as (o & Ho); [intros n Hn; apply H; apply us_next, us_next; exact Hn|].
      exists (v ++ o). constructor; assumption.
    - destruct IH1 as (o1 & H1); [intros n Hn; apply H; apply us_in; exact Hn|].
      destruct IH2 as (o2 & H2); [intros n Hn; apply H; apply us_next; exact Hn|].
      eexists. apply fi_group; eassumption.
    - destruct IH as (o & Ho); [intros n Hn; apply H; apply us_next; exact Hn|]. eexists. apply fi_tok; eassumption.
  Qed.

  Lemma expand_uses ts o n : expand_with var ts = Ok o -> uses n ts -> exists v, var n = Ok v.
  Proof.
    intros H U. revert o H. unfold expand_with.
    induction U as [a b r|d ts sp r U IH|t r U IH]; intros o H.
    - simpl in H. apply bindR_Ok in H. destruct H as (v & Hv & _). eauto.
    - simpl in H. apply bindR_Ok in H. destruct H as (g & Hg & _). apply bindR_Ok in Hg. destruct Hg as (ts' & Hts & _). eauto.
    - destruct (dollar_dec t) as [(p & ->)|Hnd].
      + destruct r as [|t2 r]; [inversion U|]. destruct t2 as [s p2|c p2|l p2|d ts p2]; simpl in H; try discriminate.
        apply bindR_Ok in H. destruct H as (v & Hv & H). apply bindR_Ok in H. destruct H as (r' & Hr & H).
        (* [n] is used in [TIdent s :: r] without the dollar *)
        apply (IH (TIdent s p2 :: r')). simpl. rewrite Hr. reflexivity.
      + destruct t as [s p|c p|l p|d ts p].
        * simpl in H. apply bindR_Ok in H. destruct H as (r' & Hr & H). eauto.
        * rewrite loop_punct_other in H by (intros ->; apply Hnd; exists p; reflexivity).
          apply bindR_Ok in H. destruct H as (r' & Hr & H). eauto.
        * simpl in H. apply bindR_Ok in H. destruct H as (r' & Hr & H). eauto.
        * simpl in H. apply bindR_Ok in H. destruct H as (g & Hg & H). apply bindR_Ok in H. destruct H as (r' & Hr & H). eauto.
  Qed.

  (** only errors of variables or of dollars come out, never a panic unless a variable panics *)
  Lemma expand_error ts e : expand_with var ts = Err e -> e = ErrDollar \/ exists n, uses n ts /\ var n = Err e.
  Proof.
    unfold expand_with.
    enough (G : (forall n ts, length ts <= n -> Forall (fun t => forall d ts p, t = TGroup d ts p ->
       expand_loop (expand_group var) var false ts = Err e -> e = ErrDollar \/ exists n, uses n ts /\ var n = Err e) ts ->
       expand_loop (expand_group var) var false ts = Err e -> e = ErrDollar \/ exists n, uses n ts /\ var n = Err e)).
    { intros H. apply (G (length ts) ts (le_n _)); [|exact H]. apply Forall_forall. intros t _.
      induction t as [s p|c p|l p|d0 ts0 p0 IH] using tt_ind'; intros d1 ts1 p1 E; try discriminate.
      injection E as <- <- <-. apply (G (length ts0) ts0 (le_n _)). exact IH. }
    clear ts. induction n as [|n IH]; intros ts Hn HF H.
    - destruct ts; [discriminate|simpl in Hn; lia].
    - destruct ts as [|t r]; [discriminate|]. simpl in Hn. inversion HF as [|? ? Ht HFr]; subst.
      assert (Hrest : expand_loop (expand_group var) var false r = Err e -> e = ErrDollar \/ exists n, uses n (t :: r) /\ var n = Err e).
      { intros Hr. destruct (IH r ltac:(lia) HFr Hr) as [->|(m & U & E)]; [now left|right; exists m; split; [apply us_next; exact U|exact E]]. }
      destruct (dollar_dec t) as [(p & ->)|Hnd].
      + destruct r as [|t2 r]; [discriminate|].
        destruct t2 as [s p2|c p2|l p2|d ts p2]; simpl in H; try (injection H as <-; now left).
        destruct (var s) as [v|ev|mv] eqn:Ev; simpl in H.
        * destruct (expand_loop (expand_group var) var false r) as [r'|er|mr] eqn:Er; simpl in H; try discriminate.
          injection H as <-. inversion HFr as [|? ? _ HFr2]; subst.
          destruct (IH r ltac:(simpl in Hn; lia) HFr2 Er) as [->|(m & U & E)]; [now left|right; exists m; split; [apply us_next, us_next; exact U|exact E]].
        * injection H as <-. right. exists s. split; [constructor|exact Ev].
        * discriminate.
      + destruct t as [s p|c p|l p|d ts p].
        * simpl in H. destruct (expand_loop (expand_group var) var false r) as [r'|er|mr]; simpl in H; try discriminate.
          injection H as <-. apply Hrest; reflexivity.
        * rewrite loop_punct_other in H by (intros ->; apply Hnd; exists p; reflexivity).
          destruct (expand_loop (expand_group var) var false r) as [r'|er|mr]; simpl in H; try discriminate.
          injection H as <-. apply Hrest; reflexivity.
        * simpl in H. destruct (expand_loop (expand_group var) var false r) as [r'|er|mr]; simpl in H; try discriminate.
          injection H as <-. apply Hrest; reflexivity.
        * simpl in H. destruct (expand_loop (expand_group var) var false ts) as [ts'|ets|mts] eqn:Ets; simpl in H.
          -- destruct (expand_loop (expand_group var) var false r) as [r'|er|mr]; simpl in H; try discriminate.
             injection H as <-. apply Hrest; reflexivity.
          -- injection H as <-. destruct (Ht d ts p eq_refl Ets) as [->|(m & U & E)]; [now left|right; exists m; split; [apply us_in; exact U|exact E]].
          -- discriminate.
  Qed.
End Expand.

Lemma loop_panic grp var ts m :
  (forall t m, In t ts -> grp t <> Panic m) -> (forall n m, var n <> Panic m) -> forall flag, expand_loop grp var flag ts <> Panic m.
Proof.
  intros Hg Hv. induction ts as [|t r IH]; intros flag H; [discriminate|].
  assert (Hg' : forall t m, In t r -> grp t <> Panic m) by (intros t0 m0 Hin; apply Hg; now right).
  specialize (IH Hg').
  destruct t as [s p|c p|l p|d ts p]; simpl in H.
  - destruct flag.
    + destruct (var s) eqn:Ev; simpl in H; try discriminate; [|exact (Hv _ _ Ev)].
      destruct (expand_loop grp var false r) eqn:Er; simpl in H; try discriminate. eapply IH. rewrite Er. congruence.
    + destruct (expand_loop grp var false r) eqn:Er; simpl in H; try discriminate. eapply IH. rewrite Er. congruence.
  - destruct flag; [discriminate|]. destruct (Ascii.eqb c "$"); [exact (IH _ H)|].
    destruct (expand_loop grp var false r) eqn:Er; simpl in H; try discriminate. eapply IH. rewrite Er. congruence.
  - destruct flag; [discriminate|].
    destruct (expand_loop grp var false r) eqn:Er; simpl in H; try discriminate. eapply IH. rewrite Er. congruence.
  - destruct flag; [discriminate|].
    destruct (grp (TGroup d ts p)) eqn:Eg; simpl in H; try discriminate; [|exact (Hg _ _ (or_introl eq_refl) Eg)].
    destruct (expand_loop grp var false r) eqn:Er; simpl in H; try discriminate. eapply IH. rewrite Er. congruence.
Qed.
Lemma group_panic var : (forall n m, var n <> Panic m) -> forall t m, expand_group var t <> Panic m.
Proof.
  intros Hv t. induction t as [s p|c p|l p|d ts p IH] using tt_ind'; intros m H; simpl in H; try discriminate.
  destruct (expand_loop (expand_group var) var false ts) eqn:E; simpl in H; try discriminate.
  injection H as <-. revert E. apply loop_panic; [|exact Hv]. intros t1 m1 Hin. rewrite Forall_forall in IH. apply IH; exact Hin.
Qed.
Lemma expand_no_panic var ts m : (forall n m, var n <> Panic m) -> expand_with var ts <> Panic m.
Proof. intros Hv. apply loop_panic; [|exact Hv]. intros t m0 _. apply group_panic; exact Hv. Qed.

(** ** Sorting *)
Lemma str_leb_le a : forall b, str_leb a b = true <-> str_le a b.
Proof.
  induction a as [|x a IH]; intros b; simpl; [split; [constructor|reflexivity]|].
  destruct b as [|y b]; [split; [discriminate|intros H; inversion H]|].
  destruct (Nat.compare_spec (nat_of_ascii x) (nat_of_ascii y)) as [E|E|E].
  - assert (x = y) by (rewrite <- (ascii_nat_embedding x), <- (ascii_nat_embedding y), E; reflexivity). subst y.
    rewrite IH. split; [apply sle_eq|]. intros H. inversion H; subst; [lia|assumption].
  - split; [intros _; apply sle_lt; exact E|reflexivity].
  - split; [discriminate|]. intros H. inversion H; subst; lia.
Qed.
Lemma str_leb_total a b : str_leb a b = false -> str_leb b a = true.
Proof.
  revert b. induction a as [|x a IH]; intros b; simpl; [discriminate|]. destruct b as [|y b]; [reflexivity|].
  simpl. rewrite (Nat.compare_antisym (nat_of_ascii x) (nat_of_ascii y)).
  destruct (Nat.compare (nat_of_ascii x) (nat_of_ascii y)); simpl; [apply IH|discriminate|reflexivity].
Qed.
Lemma str_le_trans a b c : str_le a b -> str_le b c -> str_le a c.
Proof.
  intros H. revert c. induction H as [s|x y s t Hlt|x s t H IH]; intros c Hc.
  - constructor.
  - inversion Hc; subst; [apply sle_lt; lia|apply sle_lt; assumption].
  - inversion Hc; subst; [apply sle_lt; assumption|apply sle_eq; auto].
Qed.
Lemma str_le_antisym a b : str_le a b -> str_le b a -> a = b.
Proof.
  intros H. induction H as [s|x y s t Hlt|x s t H IH]; intros H2; inversion H2; subst; try lia; [reflexivity|].
  f_equal; auto.
Qed.

Lemma insert_perm {A} (x : string * A) l : Permutation (x :: l) (insert_sorted x l).
Proof.
  induction l as [|y l IH]; [reflexivity|]. simpl. destruct (str_leb (fst x) (fst y)); [reflexivity|].
  rewrite perm_swap. apply perm_skip. exact IH.
Qed.
Lemma sort_perm {A} (l : list (string * A)) : Permutation l (sort_by_key l).
Proof. induction l as [|x l IH]; [reflexivity|]. simpl. rewrite <- insert_perm. apply perm_skip. exact IH. Qed.
Lemma insert_sorted_sorted {A} (x : string * A) l :
  StronglySorted (fun x y => str_le (fst x) (fst y)) l -> StronglySorted (fun x y => str_le (fst x) (fst y)) (insert_sorted x l).
Proof.
  induction l as [|y l IH]; intros H; simpl.
  - repeat constructor.
  - inversion H as [|? ? H1 H2]; subst. destruct (str_leb (fst x) (fst y)) eqn:E.
    + apply str_leb_le in E. constructor; [exact H|]. constructor; [exact E|].
      rewrite Forall_forall in *. intros z Hz. eapply str_le_trans; [exact E|apply H2; exact Hz].
    + apply str_leb_total, str_leb_le in E. constructor; [apply IH; exact H1|].
      rewrite Forall_forall in *. intros z Hz. apply (Permutation_in _ (Permutation_sym (insert_perm x l))) in Hz.
      destruct Hz as [<-|Hz]; [exact E|apply H2; exact Hz].
Qed.
Lemma sort_sorted {A} (l : list (string * A)) : StronglySorted (fun x y => str_le (fst x) (fst y)) (sort_by_key l).
Proof. induction l as [|x l IH]; [constructor|]. simpl. apply insert_sorted_sorted; exact IH. Qed.

Lemma sort_entries {A} (l : list (string * A)) : sorted_entries l (sort_by_key l).
Proof. split; [apply sort_perm|apply sort_sorted]. Qed.

Lemma sorted_unique {A} (a : list (string * A)) : forall b, NoDup (map fst a) -> Permutation a b ->
  StronglySorted (fun x y => str_le (fst x) (fst y)) a -> StronglySorted (fun x y => str_le (fst x) (fst y)) b -> a = b.
Proof.
  induction a as [|x a IH]; intros b Hn HP Ha Hb.
  - apply Permutation_nil in HP. congruence.
  - destruct b as [|y b]; [symmetry in HP; apply Permutation_nil_cons in HP; contradiction|].
    inversion Ha as [|? ? Ha1 Ha2]; subst. inversion Hb as [|? ? Hb1 Hb2]; subst.
    assert (Hxy : x = y).
    { assert (Hx : In x (y :: b)) by (eapply Permutation_in; [exact HP|now left]).
      assert (Hy : In y (x :: a)) by (eapply Permutation_in; [exact (Permutation_sym HP)|now left]).
      destruct Hx as [Hx|Hx]; [auto|]. destruct Hy as [Hy|Hy]; [auto|].
      rewrite Forall_forall in Ha2, Hb2. pose proof (Ha2 y Hy) as L1. pose proof (Hb2 x Hx) as L2.
      pose proof (str_le_antisym _ _ L1 L2) as E. simpl in Hn. inversion Hn as [|? ? Hn1 _]; subst.
      exfalso. apply Hn1. rewrite E. apply in_map. exact Hy. }
    subst y. f_equal. apply IH; try assumption.
    + simpl in Hn. inversion Hn; assumption.
    + eapply Permutation_cons_inv; exact HP.
Qed.
Lemma sort_perm_eq {A} (a b : list (string * A)) : NoDup (map fst a) -> Permutation a b -> sort_by_key a = sort_by_key b.
Proof.
  intros Hn HP. apply sorted_unique.
  - eapply Permutation_NoDup; [|exact Hn]. apply Permutation_map, sort_perm.
  - rewrite <- (sort_perm a), <- (sort_perm b). exact HP.
  - apply sort_sorted.
  - apply sort_sorted.
Qed.
Lemma sorted_entries_unique {A} (m a b : list (string * A)) : NoDup (map fst m) -> sorted_entries m a -> sorted_entries m b -> a = b.
Proof.
  intros Hn [P1 S1] [P2 S2]. apply sorted_unique; try assumption.
  - eapply Permutation_NoDup; [|exact Hn]. apply Permutation_map, P1.
  - rewrite <- P1. exact P2.
Qed.

(** maps *)
Lemma mget_in {A} k (m : smap A) v : mget k m = Some v -> In (k, v) m.
Proof. induction m as [|[k' v'] m IH]; simpl; [discriminate|]. destruct (String.eqb_spec k k') as [->|]; [intros E; injection E as ->; now left|auto]. Qed.
Lemma mget_none {A} k (m : smap A) : mget k m = None <-> ~ In k (keys m).
Proof.
  induction m as [|[k' v'] m IH]; simpl; [tauto|]. destruct (String.eqb_spec k k') as [->|H].
  - split; [discriminate|]. intros H; exfalso; apply H; now left.
  - rewrite IH. split; [intros H1 [H2|H2]; [congruence|tauto]|tauto].
Qed.
Lemma in_mget {A} k (m : smap A) v : NoDup (keys m) -> In (k, v) m -> mget k m = Some v.
Proof.
  induction m as [|[k' v'] m IH]; simpl; [contradiction|]. intros Hn [E|Hin]; inversion Hn as [|? ? H1 H2]; subst.
  - injection E as -> ->. rewrite String.eqb_refl. reflexivity.
  - destruct (String.eqb_spec k k') as [->|]; [|auto]. exfalso; apply H1. apply (in_map fst) in Hin. exact Hin.
Qed.
Lemma mget_perm {A} k (a b : smap A) : NoDup (keys a) -> Permutation a b -> mget k a = mget k b.
Proof.
  intros Hn HP. assert (Hnb : NoDup (keys b)) by (eapply Permutation_NoDup; [apply Permutation_map; exact HP|exact Hn]).
  destruct (mget k a) as [v|] eqn:E.
  - symmetry. apply in_mget; [exact Hnb|]. eapply Permutation_in; [exact HP|]. apply mget_in; exact E.
  - symmetry. apply mget_none. apply mget_none in E. intros H. apply E.
    eapply Permutation_in; [apply Permutation_map, Permutation_sym, HP|exact H].
Qed.
