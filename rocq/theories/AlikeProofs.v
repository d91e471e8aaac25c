(** What a walk produces is the same up to the numbers of the hooks, wherever the counters start.  *)
From Coq Require Import String Ascii Bool Arith Lia List.
From Verif Require Import Base Tokens Method Paths Context Flavor Attrs Syntax SyntaxInd Render Walker RootAttr RenderSpec RenderProofs RenderVarProofs AttrSpec SiteSpec ProgSpec WalkFacts BareProofs SiteProofs SettingSpec SettingProofs WalkSpec CountSpec CountProofs AlikeSpec.
Import ListNotations.
Open Scope string_scope.
Open Scope list_scope.
Open Scope monad_scope.

(** * Tokens *)
Local Notation same := (Forall2 alike).
Lemma alike_refl t : alike t t.
Proof.
  induction t as [s p|c p|l p|d ts p IH] using tt_ind'; try constructor. induction IH; constructor; assumption.
Qed.
Lemma same_refl ts : same ts ts.
Proof. induction ts; constructor; [apply alike_refl|assumption]. Qed.
Lemma same_app a a' b b' : same a a' -> same b b' -> same (a ++ b) (a' ++ b').
Proof. apply Forall2_app. Qed.
Lemma same_cons t a a' : same a a' -> same (t :: a) (t :: a').
Proof. constructor; [apply alike_refl|assumption]. Qed.
Lemma same_group d sp a a' : same a a' -> same [TGroup d a sp] [TGroup d a' sp].
Proof. intros H. constructor; [constructor; exact H|constructor]. Qed.
Lemma same_flat {A} (g : A -> list tt) l l' : Forall2 (fun x y => same (g x) (g y)) l l' -> same (flat_map g l) (flat_map g l').
Proof. induction 1; cbn [flat_map]; [constructor|]. apply same_app; assumption. Qed.
Lemma same_punct {A} (g : A -> list tt) l l' cs : Forall2 (fun x y => same (g x) (g y)) l l' -> same (punctuated (map g l) cs) (punctuated (map g l') cs).
Proof.
  intros H. revert cs. induction H; intros cs; cbn [map punctuated]; [constructor|]. apply same_app; [assumption|]. destruct cs; [apply IHForall2|apply same_cons, IHForall2].
Qed.
Definition both {A} (R : A -> A -> Prop) (o o' : option A) : Prop := match o, o' with Some x, Some y => R x y | None, None => True | _, _ => False end.
Lemma same_opt {A} (g : A -> list tt) o o' : both (fun x y => same (g x) (g y)) o o' -> same (opt_toks g o) (opt_toks g o').
Proof. destruct o, o'; cbn; try contradiction; auto using same_refl. Qed.
Lemma same_span q a a' : same a a' -> same (map (set_span q) a) (map (set_span q) a').
Proof. induction 1 as [|x y a a' H]; cbn [map]; [constructor|]. constructor; [|assumption]. destruct H; cbn [set_span]; econstructor; eassumption. Qed.
Lemma same_start a a' : same a a' -> ts_span a = ts_span a'.
Proof. destruct 1 as [|x y a a' H]; [reflexivity|]. cbn [ts_span]. destruct H; reflexivity. Qed.

(** * Rendering *)
Definition rsame (x y : res (list tt)) : Prop :=
  match x, y with Ok a, Ok b => same a b | Err a, Err b => a = b | Panic a, Panic b => a = b | _, _ => False end.
Lemma rsame_refl x : rsame x x.
Proof. destruct x; cbn; auto using same_refl. Qed.
Lemma rsame_bind x y (f g : list tt -> res (list tt)) : rsame x y -> (forall a b, same a b -> rsame (f a) (g b)) -> rsame (bindR x f) (bindR y g).
Proof. destruct x, y; cbn; try contradiction; auto. Qed.
Definition tsame (x y : res tt) : Prop :=
  match x, y with Ok a, Ok b => alike a b | Err a, Err b => a = b | Panic a, Panic b => a = b | _, _ => False end.
Lemma tsame_bind x y (f g : tt -> res (list tt)) : tsame x y -> (forall a b, alike a b -> rsame (f a) (g b)) -> rsame (bindR x f) (bindR y g).
Proof. destruct x, y; cbn; try contradiction; auto. Qed.
Lemma loop_alike grp grp' var var' ts : Forall (fun t => tsame (grp t) (grp' t)) ts -> (forall n, rsame (var n) (var' n)) ->
  forall flag, rsame (expand_loop grp var flag ts) (expand_loop grp' var' flag ts).
Proof.
  intros HF Hv. induction HF as [|t r Ht HF IH]; intros flag; [constructor|].
  assert (Hc : forall a, rsame (bindR (expand_loop grp var false r) (fun r' => Ok (a :: r'))) (bindR (expand_loop grp' var' false r) (fun r' => Ok (a :: r')))).
  { intros a. apply rsame_bind; [apply IH|]. intros x y Hxy. apply same_cons, Hxy. }
  destruct t as [s p|s p|l p|d ts p]; destruct flag; cbn [expand_loop]; try reflexivity.
  - apply rsame_bind; [apply Hv|]. intros a b Hab. apply rsame_bind; [apply IH|]. intros x y Hxy. apply same_app; assumption.
  - apply Hc.
  - destruct (Ascii.eqb s "$"); [apply IH|apply Hc].
  - apply Hc.
  - apply tsame_bind; [exact Ht|]. intros a b Hab. apply rsame_bind; [apply IH|]. intros x y Hxy. constructor; assumption.
Qed.
Lemma group_alike var var' : (forall n, rsame (var n) (var' n)) -> forall t, tsame (expand_group var t) (expand_group var' t).
Proof.
  intros Hv. induction t as [s p|s p|l p|d ts p IH] using tt_ind'; try (apply alike_refl). cbn [expand_group].
  pose proof (loop_alike _ _ _ _ ts IH Hv false) as H. destruct (expand_loop _ _ _ _), (expand_loop _ _ _ _); try contradiction; cbn in *; auto. constructor. exact H.
Qed.
Lemma numbered_count k n : numbered k (count_str k n).
Proof. destruct (count_str_spec k n) as (ds & suf & H). exists n, ds, suf. exact H. Qed.
Lemma count_alike k n m sp : alike (TLit (LStr (count_str k n)) sp) (TLit (LStr (count_str k m)) sp).
Proof. eapply al_count; apply numbered_count. Qed.
Ltac toks := repeat first [apply same_refl | apply same_cons | assumption].
Lemma var_alike ts_str c k n1 n2 src ets1 ets2 q s1 s2 n : same ets1 ets2 -> rsame s1 s2 ->
  rsame (meta_var_toks ts_str c k n1 src ets1 q s1 n) (meta_var_toks ts_str c k n2 src ets2 q s2 n).
Proof.
  intros He Hs. unfold meta_var_toks. destruct (metavar_of n) as [[]|]; try (apply rsame_refl); try assumption.
  - cbn. constructor; [apply count_alike|constructor].
  - cbn [rsame]. unfold hooq_meta. apply same_app; [apply same_refl|]. apply same_group. cbn [app]. repeat (constructor; [apply alike_refl|]).
    constructor; [apply count_alike|]. apply same_refl.
Qed.
Lemma method_alike ts_str c k n1 n2 src ets1 ets2 q : same ets1 ets2 -> forall fm,
  rsame (expand_method ts_str c k n1 src ets1 q fm) (expand_method ts_str c k n2 src ets2 q fm).
Proof.
  intros He. fix IH 1. intros [m anc]. cbn [expand_method].
  assert (Ha : rsame (match anc with Some a => expand_method ts_str c k n1 src ets1 q a | None => Err ErrNoSoFar end)
                     (match anc with Some a => expand_method ts_str c k n2 src ets2 q a | None => Err ErrNoSoFar end)).
  { destruct anc as [a|]; [apply IH|reflexivity]. }
  unfold expand_with. apply loop_alike; [|intros n; apply var_alike; assumption]. apply Forall_forall. intros t _. apply group_alike. intros n. apply var_alike; assumption.
Qed.
Lemma render_alike ts_str c k n1 n2 src ets1 ets2 q : same ets1 ets2 ->
  rsame (render_toks ts_str c k n1 src ets1 q) (render_toks ts_str c k n2 src ets2 q).
Proof.
  intros He. unfold render_toks. apply rsame_bind; [apply method_alike, He|]. intros a b Hab. destruct (fval (cx_method c)); cbn.
  - apply same_app; [exact He|]. apply same_cons, same_span, Hab.
  - apply same_span, Hab.
Qed.

(** * Two runs that differ in the counters only *)
Definition close (e e' : expr) : Prop := same (etoks e) (etoks e') /\ shape_of e = shape_of e' /\ outline e = outline e'.
Definition alike_by {A B} (toks : A -> list tt) (out : A -> B) (x y : A) : Prop := same (toks x) (toks y) /\ out x = out y.
Local Notation close_stmt := (alike_by stoks stmt_outline).
Local Notation close_item := (alike_by itoks item_outline).
Local Notation close_impl := (alike_by iitoks impl_outline).
Local Notation close_trait := (alike_by titoks trait_outline).
Local Notation close_arm := (alike_by armtoks arm_outline).
Local Notation close_field := (alike_by fieldtoks field_outline).
Local Notation close_mac := (alike_by mtoks mac_outline).
Local Notation close_ev := (alike_by vtoks ev_outline).
Lemma shape_check c a b : shape_of a = shape_of b -> target_call_check c a = target_call_check c b.
Proof.
  intros H. assert (Hc : call_path a = call_path b); [|unfold target_call_check; rewrite Hc; reflexivity].
  unfold call_path. unfold shape_of in H. destruct (seen a) eqn:Ha, (seen b) eqn:Hb; try reflexivity; try discriminate;
    repeat match type of H with context[match seen ?f with _ => _ end] => destruct (seen f); try discriminate; try reflexivity end; congruence.
Qed.
Lemma sim_map2 {A} (R : A -> A -> Prop) (f : A -> M A) l : Forall (fun x => sim R (f x) (f x)) l -> sim (Forall2 R) (mapM f l) (mapM f l).
Proof.
  induction 1 as [|x l Hx Hl IH]; cbn [mapM]; [apply sim_ret; constructor|]. eapply sim_bind; [exact Hx|]. intros a b Hab. eapply sim_bind; [exact IH|].
  intros l1 l2 Hll. apply sim_ret. constructor; assumption.
Qed.
Lemma sim_mapi2 {A} (R : A -> A -> Prop) (f : nat -> A -> M A) l : Forall (fun x => forall i, sim R (f i x) (f i x)) l -> forall i, sim (Forall2 R) (mapiM f i l) (mapiM f i l).
Proof.
  induction 1 as [|x l Hx Hl IH]; intros i; cbn [mapiM]; [apply sim_ret; constructor|]. eapply sim_bind; [apply Hx|]. intros a b Hab. eapply sim_bind; [apply IH|].
  intros l1 l2 Hll. apply sim_ret. constructor; assumption.
Qed.
Lemma sim_opt2 {A} (R : A -> A -> Prop) (f : A -> M A) o : optP (fun x => sim R (f x) (f x)) o -> sim (both R) (optM f o) (optM f o).
Proof.
  destruct o; cbn [optM optP]; intros H; [|apply sim_ret; exact I]. eapply sim_bind; [exact H|]. intros x y Hxy. apply sim_ret. exact Hxy.
Qed.

Section Alike.
  Variable E : env.
  Hypothesis HE : reads_alike E.

  Lemma sim_keep {B} (Q : B -> B -> Prop) a c f1 f2 : (forall x, sim Q (f1 x) (f2 x)) -> sim Q (bind (handle E a c) f1) (bind (handle E a c) f2).
  Proof.
    intros H. eapply (sim_bind (fun x y => x = y)); [|intros x y <-; apply H].
    intros n1 n2. unfold handle, lift. destruct (handle_inert_attrs _ _ _); auto.
  Qed.
  Lemma sim_hook2 apply e1 e2 src k q c : close e1 e2 ->
    sim (fun x y => close (fst x) (fst y) /\ snd x = snd y) (hook_expr E apply e1 src k q c) (hook_expr E apply e2 src k q c).
  Proof.
    intros (He & Hs & Ho) n1 n2. unfold hook_expr. destruct apply; cbn [negb]; [|cbn; unfold close; auto]. destruct (is_hook_target c k); cbn [negb]; [|cbn; unfold close; auto].
    unfold render_expr. pose proof (render_alike (ev_str E) c k (get_count k (count_up k n1)) (get_count k (count_up k n2)) src _ _ q He) as HR.
    destruct (render_toks _ _ _ _ _ (etoks e1) _) as [t1|x|x]; destruct (render_toks _ _ _ _ _ (etoks e2) _) as [t2|y|y]; cbn [rsame bindR] in *; try contradiction; auto.
    pose proof (HE t1 t2 HR) as HP. destruct (ev_parse E t1), (ev_parse E t2); try contradiction; [|reflexivity]. destruct HP as [H1 H2]. cbn [fst snd]. split; [|reflexivity].
    split; [exact H1|]. split; [exact H2|]. cbn [outline]. unfold without_count. cbn. rewrite Ho. reflexivity.
  Qed.

  Definition A_expr (e : expr) : Prop := forall ov c, sim close (walk_expr E ov c e) (walk_expr E ov c e).
  Definition A_stmt (s : stmt) : Prop := forall tk c, sim close_stmt (walk_stmt E tk c s) (walk_stmt E tk c s).
  Definition A_item (i : item) : Prop := forall c, sim close_item (walk_item E c i) (walk_item E c i).
  Definition A_impl (i : impl_item) : Prop := forall c, sim close_impl (walk_impl_item E c i) (walk_impl_item E c i).
  Definition A_trait (i : trait_item) : Prop := forall c, sim close_trait (walk_trait_item E c i) (walk_trait_item E c i).
  Definition A_arm (i : arm) : Prop := forall c, sim close_arm (walk_arm E c i) (walk_arm E c i).
  Definition A_field (i : fieldv) : Prop := forall c, sim close_field (walk_field E c i) (walk_field E c i).
  Definition A_mac (i : mac) : Prop := forall c, sim close_mac (walk_mac E c i) (walk_mac E c i).
  Definition A_ev (i : evaluable) : Prop := forall c, sim close_ev (walk_evaluable E c i) (walk_evaluable E c i).

  Lemma close_refl e : close e e.
  Proof. repeat split. apply same_refl. Qed.
  Lemma by_refl {A B} (t : A -> list tt) (o : A -> B) x : alike_by t o x x.
  Proof. split; [apply same_refl|reflexivity]. Qed.
  Lemma sim_tail2 tk e c : A_expr e ->
    sim close (handle_tail_with E (fun ov c' => walk_expr E ov c' e) e c tk) (handle_tail_with E (fun ov c' => walk_expr E ov c' e) e c tk).
  Proof.
    intros HS. unfold handle_tail_with. destruct (get_attrs e) as [a|] eqn:Ea; [|apply sim_ret, close_refl].
    apply sim_keep. intros [[a' s] c']. eapply sim_bind; [apply HS|]. intros x y Hxy. destruct (negb (is_target tk)); [apply sim_ret, Hxy|].
    rewrite (shape_check c' x y) by apply Hxy. destruct (target_call_check c' y) as [t nt]. destruct (_ || _); [|apply sim_ret, Hxy].
    rewrite (same_start _ _ (proj1 Hxy)). eapply sim_bind; [apply sim_hook2, Hxy|]. intros [x' ?] [y' ?] [H1 H2]. apply sim_ret. exact H1.
  Qed.
  Lemma sim_stmts2 (tk : nat -> tail_kind) c b : Forall A_stmt b -> sim (Forall2 close_stmt) (mapiM (fun i s => walk_stmt E (tk i) c s) 0 b) (mapiM (fun i s => walk_stmt E (tk i) c s) 0 b).
  Proof. intros HF. apply sim_mapi2. eapply Forall_impl; [|exact HF]. intros s Hs i. apply Hs. Qed.

  (** congruence: a list, option or node of close parts *)
  Lemma close_toks l l' : Forall2 close l l' -> Forall2 (fun x y => same (etoks x) (etoks y)) l l' /\ map outline l = map outline l'.
  Proof. induction 1 as [|x y l l' (H1 & _ & H2) HF [IH1 IH2]]; [split; constructor|]. split; [constructor; assumption|cbn [map]; congruence]. Qed.
  Lemma by_toks {A B} (t : A -> list tt) (o : A -> B) l l' : Forall2 (alike_by t o) l l' -> Forall2 (fun x y => same (t x) (t y)) l l' /\ map o l = map o l'.
  Proof. induction 1 as [|x y l l' (H1 & H2) HF [IH1 IH2]]; [split; constructor|]. split; [constructor; assumption|cbn [map]; congruence]. Qed.
  Lemma opt_close o o' : both close o o' -> both (fun x y => same (etoks x) (etoks y)) o o' /\ option_map outline o = option_map outline o'.
  Proof. destruct o, o'; cbn; try contradiction; [|auto]. intros (H1 & _ & H2). split; [exact H1|congruence]. Qed.

  Ltac agcbn :=
    cbn [walk_expr walk_stmt walk_item walk_impl_item walk_trait_item walk_arm walk_field walk_mac walk_evaluable];
    try fold (walk_expr E); try fold (walk_stmt E); try fold (walk_item E); try fold (walk_impl_item E);
    try fold (walk_trait_item E); try fold (walk_arm E); try fold (walk_field E); try fold (walk_mac E);
    try fold (walk_evaluable E).
  Ltac each := match goal with H : Forall ?P ?l |- Forall _ ?l => eapply Forall_impl; [|exact H]; let x := fresh in let hx := fresh in intros x hx; apply hx end.
  Ltac awalk :=
    first
    [ match goal with H : A_expr ?e |- sim _ (walk_expr _ _ _ ?e) _ => apply H end
    | match goal with H : A_mac ?e |- sim _ (walk_mac _ _ ?e) _ => apply H end
    | match goal with H : A_item ?e |- sim _ (walk_item _ _ ?e) _ => apply H end
    | match goal with H : A_stmt ?e |- sim _ (walk_stmt _ _ _ ?e) _ => apply H end
    | match goal with H : optP A_expr ?o |- sim _ (optM _ ?o) _ => apply (sim_opt2 close); destruct o; cbn [optP] in *; [apply H|exact I] end
    | match goal with |- sim _ (mapiM _ 0 _) _ => apply sim_stmts2; assumption end
    | match goal with H : Forall A_expr ?l |- sim _ (mapM _ ?l) _ => apply (sim_map2 close); each end
    | match goal with H : Forall A_item ?l |- sim _ (mapM _ ?l) _ => apply (sim_map2 close_item); each end
    | match goal with H : Forall A_impl ?l |- sim _ (mapM _ ?l) _ => apply (sim_map2 close_impl); each end
    | match goal with H : Forall A_trait ?l |- sim _ (mapM _ ?l) _ => apply (sim_map2 close_trait); each end
    | match goal with H : Forall A_arm ?l |- sim _ (mapM _ ?l) _ => apply (sim_map2 close_arm); each end
    | match goal with H : Forall A_field ?l |- sim _ (mapM _ ?l) _ => apply (sim_map2 close_field); each end
    | match goal with H : Forall A_ev ?l |- sim _ (mapM _ ?l) _ => apply (sim_map2 close_ev); each end ].
  Ltac ago :=
    repeat match goal with
    | |- sim _ (bind (handle _ _ _) _) _ => apply sim_keep; intros [[? ?] ?]; cbv beta iota
    | |- sim _ (bind _ _) _ => eapply sim_bind; [awalk|intros; cbv beta iota]
    | |- sim _ (ret _) _ => apply sim_ret
    end.
  Ltac opened :=
    repeat match goal with
    | H : close _ _ |- _ => let h1 := fresh "Ht" in let h2 := fresh "Hs" in let h3 := fresh "Ho" in destruct H as (h1 & h2 & h3)
    | H : alike_by _ _ _ _ |- _ => let h1 := fresh "Ht" in let h3 := fresh "Ho" in destruct H as (h1 & h3)
    | H : Forall2 close _ _ |- _ => apply close_toks in H; let h1 := fresh "Ht" in let h3 := fresh "Ho" in destruct H as (h1 & h3)
    | H : Forall2 (alike_by _ _) _ _ |- _ => apply by_toks in H; let h1 := fresh "Ht" in let h3 := fresh "Ho" in destruct H as (h1 & h3)
    | H : both close _ _ |- _ => apply opt_close in H; let h1 := fresh "Ht" in let h3 := fresh "Ho" in destruct H as (h1 & h3)
    end.
  Ltac piece := first [assumption | apply same_refl | apply same_group | apply same_app | apply same_flat | apply same_punct | apply same_opt | apply same_cons].
  Ltac tcbn := cbn [opt_toks etoks stoks itoks iitoks titoks armtoks fieldtoks vtoks]; try fold etoks; try fold stoks; try fold itoks; try fold iitoks; try fold titoks; try fold armtoks; try fold fieldtoks.
  Ltac ocbn := cbn [option_map outline stmt_outline item_outline impl_outline trait_outline arm_outline field_outline mac_outline ev_outline];
    try fold outline; try fold stmt_outline; try fold item_outline; try fold impl_outline; try fold trait_outline; try fold arm_outline; try fold field_outline; try fold mac_outline; try fold ev_outline.
  Ltac afin := opened; repeat split; [tcbn; repeat piece | try reflexivity; ocbn; congruence ..].

  Lemma sim_alike : (forall x, A_expr x) /\ (forall x, A_stmt x) /\ (forall x, A_item x) /\ (forall x, A_impl x) /\ (forall x, A_trait x) /\
    (forall x, A_arm x) /\ (forall x, A_field x) /\ (forall x, A_mac x) /\ (forall x, A_ev x).
  Proof.
    apply syntax_ind2; intros.
    all: match goal with
         | |- A_stmt _ => intros tk c1
         | |- A_expr _ => intros ov c1
         | _ => intros c1
         end; agcbn.
    all: try solve [ago; afin].
    - (* call *)
      ago. opened. split; [tcbn; repeat piece|]. split; [|ocbn; congruence].
      match goal with Hs : shape_of ?x = shape_of ?y |- _ => clear - Hs; unfold shape_of in *; cbn [seen]; destruct (seen x), (seen y); try discriminate; try reflexivity;
        repeat match type of Hs with context[match seen ?f with _ => _ end] => destruct (seen f); try discriminate; try reflexivity end; congruence end.
    - (* closure *)
      apply sim_keep. intros [[a' s] c']. cbv beta iota. eapply (sim_bind close).
      + destruct body; try (apply sim_tail2; assumption). cbn [stmts_of] in *. ago. afin.
      + intros x y Hxy. apply sim_ret. afin.
    - (* return *)
      apply sim_keep. intros [[a' s] c']. cbv beta iota. destruct e as [e0|]; [|apply sim_ret, close_refl]. cbn [optP] in *.
      eapply sim_bind; [awalk|]. intros x y Hxy. rewrite (shape_check c' x y) by apply Hxy. destruct (target_call_check c' y) as [t nt].
      destruct (_ || _).
      + eapply sim_bind; [apply sim_hook2, Hxy|]. intros [x' ?] [y' ?] [Hf _]. cbn [fst] in Hf. apply sim_ret. afin.
      + apply sim_ret. afin.
    - (* try *)
      apply sim_keep. intros [[a' s] c']. cbv beta iota. eapply sim_bind; [awalk|]. intros x y Hxy. eapply sim_bind; [apply sim_hook2, Hxy|].
      intros [x' ?] [y' exc] [Hf Hf2]. cbn [fst snd] in *. subst. apply sim_ret. destruct exc; [|afin].
      destruct Hf as (H1 & H2 & H3). split; [|split].
      + destruct x', y'; exact H1.
      + destruct x', y'; exact H2.
      + destruct x', y'; cbn [outline] in H3; try discriminate; try exact H3. cbn [mark_consumed outline]. unfold without_count in *. cbn in *. congruence.
    - (* expression statement *)
      destruct semi; [ago; afin|]. destruct (is_target tk); [|ago; afin]. eapply sim_bind; [apply sim_tail2; assumption|]. intros x y Hxy. apply sim_ret. afin.
    - (* macro item *)
      destruct name; [apply sim_ret, by_refl|]. ago. opened. split; [|ocbn; congruence]. tcbn. apply same_app; [apply same_refl|]. apply same_app; [|apply same_refl].
      match goal with H : Forall2 alike (mtoks ?x) (mtoks ?y) |- _ => destruct x, y; exact H end.
    - (* arm *)
      ago. eapply (sim_bind close); [|intros; apply sim_ret; afin]. destruct body; first [awalk | apply sim_tail2; assumption].
    - (* field *)
      ago. opened. split; [|ocbn; congruence]. tcbn. apply same_app; [apply same_refl|]. apply same_app; [apply same_refl|]. destruct colon; [constructor|]. repeat piece.
    - (* macro call *)
      destruct (negb _); [apply sim_ret, by_refl|]. destruct view as [l|]; [|apply sim_ret, by_refl]. cbn [optP] in *. ago. opened. split; [|ocbn; congruence].
      cbn [mtoks]. apply same_app; [apply same_refl|]. apply same_cons, same_group, same_flat. assumption.
  Qed.
End Alike.

(** * Siblings *)
Section AlikeSiblings.
  Variable E : env.
  Hypothesis HE : reads_alike E.
  Variable f : fcore.
  Lemma inside_walked it out fr p p' : expands E f it out -> inside it out fr p p' -> exists c, ctx_at E (ctx_new f) fr c /\ walks E c p p'.
  Proof.
    intros [cnt Hx] H. induction H as [|fr a hd sp l a' hd' sp' l' n x x' H IH H1 H2|fr a hd sp l a' hd' sp' l' n x x' H IH H1 H2|fr a hd sp l a' hd' sp' l' n x x' H IH H1 H2].
    - exists (ctx_new f). split; [constructor|]. cbn. eauto.
    - destruct IH as (c & Hc & n1 & n2 & Hwalk). wcbn E Hwalk. winv.
      match goal with Hm : mapM _ _ _ = Ok _, Hh : handle_inert_attrs _ _ _ = Ok (_, _, ?c1) |- _ => exists c1; split; [eapply at_attrs; eassumption|]; apply mapM_chain in Hm; eapply chain_nth; eassumption end.
    - destruct IH as (c & Hc & n1 & n2 & Hwalk). wcbn E Hwalk. winv.
      match goal with Hm : mapM _ _ _ = Ok _, Hh : handle_inert_attrs _ _ _ = Ok (_, _, ?c1) |- _ => exists c1; split; [eapply at_attrs; eassumption|]; apply mapM_chain in Hm; eapply chain_nth; eassumption end.
    - destruct IH as (c & Hc & n1 & n2 & Hwalk). wcbn E Hwalk. winv.
      match goal with Hm : mapM _ _ _ = Ok _, Hh : handle_inert_attrs _ _ _ = Ok (_, _, ?c1) |- _ => exists c1; split; [eapply at_attrs; eassumption|]; apply mapM_chain in Hm; eapply chain_nth; eassumption end.
  Qed.
  Lemma alike_inside it1 out1 it2 out2 fr p p1 p2 : expands E f it1 out1 -> inside it1 out1 fr p p1 -> expands E f it2 out2 -> inside it2 out2 fr p p2 ->
    same (part_toks p1) (part_toks p2) /\ part_outline p1 = part_outline p2.
  Proof.
    intros Hx1 Hi1 Hx2 Hi2. destruct (inside_walked _ _ _ _ _ Hx1 Hi1) as (c & Hc & H1).
    destruct (inside_walked _ _ _ _ _ Hx2 Hi2) as (c' & Hc' & H2). rewrite <- (one_ctx _ _ _ _ _ Hc Hc') in H2.
    destruct (sim_alike E HE) as (_ & _ & Si & Sm & St & _).
    destruct p as [x|x|x], p1 as [y|y|y]; try contradiction; destruct p2 as [z|z|z]; try contradiction;
      destruct H1 as (n1 & m1 & H1), H2 as (n2 & m2 & H2); cbn [part_toks part_outline].
    - specialize (Si x c n1 n2). rewrite H1, H2 in Si. destruct Si. split; [assumption|congruence].
    - specialize (Sm x c n1 n2). rewrite H1, H2 in Sm. destruct Sm. split; [assumption|congruence].
    - specialize (St x c n1 n2). rewrite H1, H2 in St. destruct St. split; [assumption|congruence].
  Qed.
  Lemma split_one {A} (R : A -> A -> Prop) (w : A -> M A) l : (forall x, sim R (w x) (w x)) -> forall n l' n', mapM w l n = Ok (l', n') ->
    Forall2 (fun x x' => forall m, exists y m', w x m = Ok (y, m') /\ R y x') l l'.
  Proof.
    intros HF n l' n' H. apply mapM_chain in H. induction H as [|c1 x x1 c2 l l1 c3 Hw Hch IH]; [constructor|]. constructor; [|exact IH].
    intros m. specialize (HF x m c1). rewrite Hw in HF. destruct (w x m) as [[b k]|e|e]; try contradiction. eauto.
  Qed.
  Lemma join_all {A} (R : A -> A -> Prop) (w : A -> M A) l : (forall x, sim R (w x) (w x)) ->
    Forall (fun x => exists m y m', w x m = Ok (y, m')) l -> forall n, exists l' n', mapM w l n = Ok (l', n').
  Proof.
    intros HF HW. induction HW as [|x l (m & y & m' & Hy) HW IH]; intros n; [exists [], n; reflexivity|].
    destruct (sim_Ok _ _ _ _ n _ _ (HF x) Hy) as (b & k & Hb & _). destruct (IH k) as (l' & n' & Hl). exists (b :: l'), n'.
    cbn [mapM]. unfold bind. rewrite Hb, Hl. reflexivity.
  Qed.
  Lemma mod_alike a hd sp l :
    (forall out, expands E f (IMod a hd sp l) out -> exists l', out = IMod (foreign a) hd sp l' /\
       Forall2 (fun x x' => exists y, expands E f (IMod a hd sp [x]) (IMod (foreign a) hd sp [y]) /\ same (itoks y) (itoks x') /\ item_outline y = item_outline x') l l') /\
    (l <> [] -> (forall x, In x l -> exists y, expands E f (IMod a hd sp [x]) y) -> exists out, expands E f (IMod a hd sp l) out).
  Proof.
    destruct (sim_alike E HE) as (_ & _ & HS & _). split.
    - intros out H. apply mod_expands in H. destruct H as (s & c & l' & n' & Hh & Hm & ->). exists l'. split; [reflexivity|].
      pose proof (split_one _ _ _ (fun x => HS x c) _ _ _ Hm) as H2. eapply forall2_more; [|exact H2]. cbv beta. intros x x' Hx.
      destruct (Hx counter0) as (y & m' & Hy & Hg). exists y. split; [|exact Hg]. apply mod_expands. exists s, c, [y], m'.
      split; [exact Hh|]. split; [|reflexivity]. cbn [mapM]. unfold bind. rewrite Hy. reflexivity.
    - intros Hl HX. destruct l as [|x0 l0]; [contradiction|].
      destruct (HX x0 (or_introl eq_refl)) as (y & Hy). apply mod_expands in Hy. destruct Hy as (s & c & _ & _ & Hh & _).
      destruct (join_all _ (walk_item E c) (x0 :: l0) (fun x => HS x c)) with (n := counter0) as (l' & n' & Hm).
      + apply Forall_forall. intros x Hx. destruct (HX x Hx) as (z & Hz). apply mod_expands in Hz. destruct Hz as (s2 & c2 & lz & nz & Hh2 & Hz & _).
        rewrite Hh in Hh2. inversion Hh2; subst s2 c2. cbn [mapM] in Hz. apply bind_Ok in Hz. destruct Hz as (y1 & k1 & Hy1 & _). eauto.
      + exists (IMod (foreign a) hd sp l'). apply mod_expands. eauto 10.
  Qed.
  Lemma impl_alike a hd sp l :
    (forall out, expands E f (IImpl a hd sp l) out -> exists l', out = IImpl (foreign a) hd sp l' /\
       Forall2 (fun x x' => exists y, expands E f (IImpl a hd sp [x]) (IImpl (foreign a) hd sp [y]) /\ same (iitoks y) (iitoks x') /\ impl_outline y = impl_outline x') l l') /\
    (l <> [] -> (forall x, In x l -> exists y, expands E f (IImpl a hd sp [x]) y) -> exists out, expands E f (IImpl a hd sp l) out).
  Proof.
    destruct (sim_alike E HE) as (_ & _ & _ & HS & _). split.
    - intros out H. apply impl_expands in H. destruct H as (s & c & l' & n' & Hh & Hm & ->). exists l'. split; [reflexivity|].
      pose proof (split_one _ _ _ (fun x => HS x c) _ _ _ Hm) as H2. eapply forall2_more; [|exact H2]. cbv beta. intros x x' Hx.
      destruct (Hx counter0) as (y & m' & Hy & Hg). exists y. split; [|exact Hg]. apply impl_expands. exists s, c, [y], m'.
      split; [exact Hh|]. split; [|reflexivity]. cbn [mapM]. unfold bind. rewrite Hy. reflexivity.
    - intros Hl HX. destruct l as [|x0 l0]; [contradiction|].
      destruct (HX x0 (or_introl eq_refl)) as (y & Hy). apply impl_expands in Hy. destruct Hy as (s & c & _ & _ & Hh & _).
      destruct (join_all _ (walk_impl_item E c) (x0 :: l0) (fun x => HS x c)) with (n := counter0) as (l' & n' & Hm).
      + apply Forall_forall. intros x Hx. destruct (HX x Hx) as (z & Hz). apply impl_expands in Hz. destruct Hz as (s2 & c2 & lz & nz & Hh2 & Hz & _).
        rewrite Hh in Hh2. inversion Hh2; subst s2 c2. cbn [mapM] in Hz. apply bind_Ok in Hz. destruct Hz as (y1 & k1 & Hy1 & _). eauto.
      + exists (IImpl (foreign a) hd sp l'). apply impl_expands. eauto 10.
  Qed.
  Lemma trait_alike a hd sp l :
    (forall out, expands E f (ITrait a hd sp l) out -> exists l', out = ITrait (foreign a) hd sp l' /\
       Forall2 (fun x x' => exists y, expands E f (ITrait a hd sp [x]) (ITrait (foreign a) hd sp [y]) /\ same (titoks y) (titoks x') /\ trait_outline y = trait_outline x') l l') /\
    (l <> [] -> (forall x, In x l -> exists y, expands E f (ITrait a hd sp [x]) y) -> exists out, expands E f (ITrait a hd sp l) out).
  Proof.
    destruct (sim_alike E HE) as (_ & _ & _ & _ & HS & _). split.
    - intros out H. apply trait_expands in H. destruct H as (s & c & l' & n' & Hh & Hm & ->). exists l'. split; [reflexivity|].
      pose proof (split_one _ _ _ (fun x => HS x c) _ _ _ Hm) as H2. eapply forall2_more; [|exact H2]. cbv beta. intros x x' Hx.
      destruct (Hx counter0) as (y & m' & Hy & Hg). exists y. split; [|exact Hg]. apply trait_expands. exists s, c, [y], m'.
      split; [exact Hh|]. split; [|reflexivity]. cbn [mapM]. unfold bind. rewrite Hy. reflexivity.
    - intros Hl HX. destruct l as [|x0 l0]; [contradiction|].
      destruct (HX x0 (or_introl eq_refl)) as (y & Hy). apply trait_expands in Hy. destruct Hy as (s & c & _ & _ & Hh & _).
      destruct (join_all _ (walk_trait_item E c) (x0 :: l0) (fun x => HS x c)) with (n := counter0) as (l' & n' & Hm).
      + apply Forall_forall. intros x Hx. destruct (HX x Hx) as (z & Hz). apply trait_expands in Hz. destruct Hz as (s2 & c2 & lz & nz & Hh2 & Hz & _).
        rewrite Hh in Hh2. inversion Hh2; subst s2 c2. cbn [mapM] in Hz. apply bind_Ok in Hz. destruct Hz as (y1 & k1 & Hy1 & _). eauto.
      + exists (ITrait (foreign a) hd sp l'). apply trait_expands. eauto 10.
  Qed.
End AlikeSiblings.
