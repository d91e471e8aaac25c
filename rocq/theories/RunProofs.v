(** What runs the same is a congruence.  *)
From Coq Require Import String Ascii Bool Arith List.
From Verif Require Import Base Tokens Method Paths Context Flavor Attrs Syntax SyntaxInd Walker AttrSpec ProgSpec SiteSpec WalkSpec MeaningSpec MeaningProofs RunSpec.
Import ListNotations.
Open Scope string_scope.
Open Scope list_scope.

(** * Shapes tell the number of parts *)
Definition counts {A} (sh : A -> A) (pa : A -> list expr) (x : A) : Prop := length (pa (sh x)) = length (pa x).
Lemma counts_flat {A} (sh : A -> A) pa l : Forall (counts sh pa) l -> length (flat_map pa (map sh l)) = length (flat_map pa l).
Proof. induction 1 as [|x l H _ IH]; cbn; [reflexivity|]. rewrite !app_length, IH. unfold counts in H. rewrite H. reflexivity. Qed.
Lemma counts_all :
  (forall e : expr, True) /\ (forall s, counts stmt_shape stmt_parts s) /\ (forall i, counts item_shape item_parts i) /\ (forall i, counts impl_shape impl_parts i) /\
  (forall i, counts trait_shape trait_parts i) /\ (forall r : arm, True) /\ (forall x : fieldv, True) /\ (forall m, counts mac_shape mac_parts m) /\ (forall v, counts ev_shape ev_parts v).
Proof.
  apply syntax_ind; intros; auto; try (unfold counts; cbn; auto; try (apply counts_flat; assumption); fail).
  - unfold counts. destruct el; reflexivity.
  - destruct view as [l|]; [|reflexivity]. unfold counts. cbn in *. apply counts_flat. exact H.
Qed.
Lemma stmt_count s s' : stmt_shape s = stmt_shape s' -> length (stmt_parts s) = length (stmt_parts s').
Proof. destruct counts_all as (_ & H & _). intros E. rewrite <- (H s), <- (H s'), E. reflexivity. Qed.
Lemma Forall2_app_inv' {A} (R : A -> A -> Prop) a a' : length a = length a' -> forall b b', Forall2 R (a ++ b) (a' ++ b') -> Forall2 R a a' /\ Forall2 R b b'.
Proof.
  revert a'. induction a as [|x a IH]; intros [|y a'] L b b'; cbn in L |- *; try discriminate; [intros H; split; [constructor|exact H]|].
  intros H. inversion_clear H. destruct (IH a' (f_equal pred L) b b' H1). split; [constructor; assumption|assumption].
Qed.


(** * What may be forgotten *)
(** the outermost constructors are the same and their arguments are so up to [st] *)
Definition like_head (st : val -> val) (u u' : val) : Prop :=
  match u, u' with
  | VUnit, VUnit | VFun, VFun | VTuple _, VTuple _ | VArray _, VArray _ => True
  | VName a, VName b | VText a, VText b => a = b
  | VOk a, VOk b | VErr a, VErr b | VSome a, VSome b | VSeen a, VSeen b => st a = st b
  | VMut a, VMut b => a = b
  | _, _ => False
  end.
Record forgets (st : val -> val) : Prop := mk_forgets {
  fg_head : forall v v', st v = st v' -> like_head st (core v) (core v');
  fg_one : forall k, In k [VOk; VErr; VSome; VSeen; VCtx] -> forall v v', st v = st v' -> st (k v) = st (k v');
  fg_many : forall k, In k [VTuple; VArray] -> forall vs vs', map st vs = map st vs' -> st (k vs) = st (k vs') }.
Lemma core_core v : core (core v) = core v.
Proof. induction v; cbn; auto. Qed.
Lemma strip_core v : strip (core v) = strip v.
Proof. induction v; cbn; auto. Qed.
Lemma core_ctx v u : core v = VCtx u -> False.
Proof. induction v; cbn; try discriminate. auto. Qed.
Lemma forgets_exactly : forgets exactly.
Proof.
  constructor; unfold exactly.
  - intros v v' <-. pose proof (core_ctx v) as C. destruct (core v); cbn; auto. exact (C _ eq_refl).
  - intros k _ v v' <-. reflexivity.
  - intros k _ vs vs'. rewrite !map_id. intros <-. reflexivity.
Qed.
Lemma forgets_strip : forgets strip.
Proof.
  constructor.
  - intros v v' E. rewrite <- (strip_core v), <- (strip_core v') in E. pose proof (core_ctx v) as C. pose proof (core_ctx v') as C'.
    destruct (core v), (core v'); cbn in *; try discriminate E; auto; try (inversion E; auto; fail); try (elim (C _ eq_refl)); try (elim (C' _ eq_refl)).
  - intros k Hk v v' E. cbn in Hk. decompose [or] Hk; subst; cbn; try congruence; contradiction.
  - intros k Hk vs vs' E. cbn in Hk. decompose [or] Hk; subst; cbn; try congruence; contradiction.
Qed.

(** * Worlds that agree *)
Section Upto.
  Variable st : val -> val.
  Hypothesis Hst : forgets st.
  Notation agrees := (agree_upto st).
  Notation same := (same_upto st).

  Lemma agree_refl w : agrees w w.
  Proof. split; reflexivity. Qed.
  Lemma agree_sym w w' : agrees w w' -> agrees w' w.
  Proof. intros [H K]. split; congruence. Qed.
  Lemma agree_trans a b c : agrees a b -> agrees b c -> agrees a c.
  Proof. intros [H K] [H2 K2]. split; congruence. Qed.
  Lemma vars_app a b : vars_of st (a ++ b) = vars_of st a ++ vars_of st b.
  Proof. apply map_app. Qed.
  Lemma vars_length a b : vars_of st a = vars_of st b -> length a = length b.
  Proof. intros H. rewrite <- (map_length (fun x => (fst x, st (snd x))) a), <- (map_length (fun x => (fst x, st (snd x))) b). exact (f_equal (@length _) H). Qed.
  Lemma vars_skip k : forall a b, vars_of st a = vars_of st b -> vars_of st (skipn k a) = vars_of st (skipn k b).
  Proof. induction k as [|k IH]; intros [|x a] [|y b] H; try discriminate; auto. cbn in H |- *. apply IH. inversion H. assumption. Qed.
  Lemma agree_bind xs xs' w w' : vars_of st xs = vars_of st xs' -> agrees w w' -> agrees (bind_all xs w) (bind_all xs' w').
  Proof. intros E [H K]. split; unfold bind_all, with_vars; cbn [w_vars w_calls]; [|exact K]. rewrite !vars_app. congruence. Qed.
  Lemma agree_cut w w' u u' : agrees w w' -> agrees u u' -> agrees (cut w u) (cut w' u').
  Proof. intros [H K] [H2 K2]. split; unfold cut, with_vars; cbn [w_vars w_calls]; [|exact K2]. rewrite (vars_length _ _ H), (vars_length _ _ H2). apply vars_skip, H2. Qed.
  Lemma lookup_agree x w w' : agrees w w' -> st (lookup x w) = st (lookup x w').
  Proof.
    intros [H _]. unfold lookup. revert H. generalize (w_vars w), (w_vars w'). induction l as [|[y v] l IH]; intros [|[y' v'] l'] H; try discriminate; [reflexivity|].
    cbn in H |- *. inversion H; subst. destruct (String.eqb y' x); [assumption|]. apply IH. assumption.
  Qed.
  Lemma level_agree x : forall a b, vars_of st a = vars_of st b -> level x a = level x b.
  Proof. induction a as [|[y v] a IH]; intros [|[y' v'] b] H; try discriminate; [reflexivity|]. cbn in H |- *. inversion H; subst. rewrite (vars_length a b) by assumption. rewrite (IH b) by assumption. reflexivity. Qed.
  Lemma content_agree l : forall a b, vars_of st a = vars_of st b -> st (content l a) = st (content l b).
  Proof. induction a as [|[y v] a IH]; intros [|[y' v'] b] H; try discriminate; [reflexivity|]. cbn in H |- *. inversion H; subst. rewrite (vars_length a b) by assumption. destruct (Nat.eqb (length b) l); auto. Qed.
  Lemma put_agree l v v' : st v = st v' -> forall a b, vars_of st a = vars_of st b -> vars_of st (put l v a) = vars_of st (put l v' b).
  Proof.
    intros Hv. induction a as [|[y u] a IH]; intros [|[y' u'] b] H; try discriminate; [reflexivity|]. cbn in H |- *. inversion H; subst. rewrite (vars_length a b) by assumption.
    destruct (Nat.eqb (length b) l); cbn; [congruence|]. apply f_equal2; [congruence|]. apply (IH b). assumption.
  Qed.
  Ltac t_head v v' E := let H := fresh in pose proof (fg_head st Hst v v' E) as H; destruct (core v), (core v'); try contradiction; cbn [like_head] in H; subst.
  Lemma borrowed_agree p w w' : agrees w w' -> borrowed p w = borrowed p w'.
  Proof.
    intros H. unfold borrowed. destruct p as [[[] x]|]; [|destruct H as [H _]; apply level_agree, H|reflexivity].
    t_head (lookup x w) (lookup x w') (lookup_agree x w w' H); reflexivity.
  Qed.
  Lemma seen_agree a b v v' : vars_of st a = vars_of st b -> st v = st v' -> st (seen a v) = st (seen b v').
  Proof. intros H E. unfold seen. t_head v v' E; auto. apply (fg_one st Hst); [simpl; tauto|]. apply content_agree, H. Qed.
  Lemma seen_all a b : vars_of st a = vars_of st b -> forall vs vs', map st vs = map st vs' -> map st (map (seen a) vs) = map st (map (seen b) vs').
  Proof. intros H. induction vs as [|v vs IH]; intros [|v' vs'] E; try discriminate; [reflexivity|]. cbn in E |- *. inversion E. rewrite (seen_agree a b v v') by assumption. rewrite (IH vs') by assumption. reflexivity. Qed.
  Lemma put_all_agree : forall vs vs' news news' a b, map st vs = map st vs' -> map st news = map st news' -> vars_of st a = vars_of st b -> vars_of st (put_all vs news a) = vars_of st (put_all vs' news' b).
  Proof.
    induction vs as [|v vs IH]; intros [|v' vs'] news news' a b E En H; try discriminate; [exact H|]. cbn in E. inversion E as [[E1 E2]]. cbn [put_all].
    t_head v v' E1; auto. destruct news as [|x news], news' as [|x' news']; try discriminate; auto. cbn in En. inversion En. apply IH; auto. apply put_agree; assumption.
  Qed.
  Lemma is_fun_agree v v' : st v = st v' -> is_fun v = is_fun v'.
  Proof. intros E. unfold is_fun. t_head v v' E; reflexivity. Qed.
  Lemma no_fun_agree : forall vs vs', map st vs = map st vs' -> existsb is_fun vs = existsb is_fun vs'.
  Proof. induction vs as [|v vs IH]; intros [|v' vs'] E; try discriminate; [reflexivity|]. cbn in E |- *. inversion E. rewrite (is_fun_agree v v'), (IH vs') by assumption. reflexivity. Qed.
  (** patterns *)
  Definition outcome_of (o : outcome) : outcome := match o with Fits xs => Fits (vars_of st xs) | o => o end.
  Lemma simple_agree pt v v' : st v = st v' -> outcome_of (fits_simple pt v) = outcome_of (fits_simple pt v').
  Proof.
    intros E. assert (C : forall s, outcome_of (match core v with VName y => if String.eqb s y then Fits [] else Fails | _ => Fails end) = outcome_of (match core v' with VName y => if String.eqb s y then Fits [] else Fails | _ => Fails end))
      by (intros s; t_head v v' E; reflexivity).
    assert (C' : forall s, outcome_of (match core v with VText y => if String.eqb s y then Fits [] else Fails | _ => Fails end) = outcome_of (match core v' with VText y => if String.eqb s y then Fits [] else Fails | _ => Fails end))
      by (intros s; t_head v v' E; reflexivity).
    assert (B : forall x, outcome_of (Fits [(x, v)]) = outcome_of (Fits [(x, v')])) by (intros x; cbn; rewrite E; reflexivity).
    unfold fits_simple. repeat (match goal with |- outcome_of (match ?x with _ => _ end) = _ => lazymatch x with core _ => fail | _ => destruct x end end; try reflexivity; auto).
  Qed.
  Lemma fits_agree pt v v' : st v = st v' -> outcome_of (fits pt v) = outcome_of (fits pt v').
  Proof.
    intros E. unfold fits. repeat (match goal with |- outcome_of (match ?x with _ => _ end) = _ => lazymatch x with core _ => fail | _ => destruct x end end; try (apply simple_agree; exact E); try reflexivity);
      t_head v v' E; auto using simple_agree.
  Qed.

  (** * Steps *)
  Lemma same_pair f f' w w' : flow_of st f = flow_of st f' -> agrees w w' -> same (f, w) (f', w').
  Proof. split; auto. Qed.
  Lemma same_go v v' w w' : st v = st v' -> agrees w w' -> same (Go v, w) (Go v', w').
  Proof. intros. apply same_pair; cbn; congruence. Qed.
  Hint Resolve same_pair same_go agree_bind agree_cut agree_refl : core.
  Lemma same_andthen r r' n n' : same r r' -> (forall v v' w w', st v = st v' -> agrees w w' -> same (n v w) (n' v' w')) -> same (andthen r n) (andthen r' n').
  Proof. destruct r as [f w], r' as [f' w']. intros [Hf Hw] Hn. cbn [fst snd] in *. destruct f, f'; try discriminate Hf; cbn [andthen]; auto. cbn in Hf. inversion Hf. auto. Qed.
  Lemma same_leave w w' r r' : agrees w w' -> same r r' -> same (leave_block w r) (leave_block w' r').
  Proof. intros Hw [H3 H4]. split; cbn [leave_block fst snd]; auto. Qed.
  Lemma same_choose v v' y y' n n' w w' : st v = st v' -> same y y' -> same n n' -> agrees w w' -> same (choose v y n w) (choose v' y' n' w').
  Proof.
    intros E Hy Hn Hw. unfold choose. t_head v v' E; auto. repeat (match goal with |- context [match ?x with _ => _ end] => is_var x; destruct x end; auto).
  Qed.
  Lemma same_again k b b' : (forall w w', agrees w w' -> same (b w) (b' w')) -> forall w w', agrees w w' -> same (again k b w) (again k b' w').
  Proof.
    intros Hb. induction k as [|k IH]; intros w w' Hw; cbn [again]; auto. destruct (Hb w w' Hw) as [H1 H2]. destruct (b w) as [f u], (b' w') as [f' u']. cbn [fst snd] in H1, H2.
    destruct f, f'; try discriminate H1; auto. cbn in H1. inversion H1. auto.
  Qed.

Section Run.
  Variable rounds : nat.
  Variable lib : library.
  Hypothesis Hlib : blind st lib.
  Notation R := (runs_like st rounds lib).
  Notation run := (run rounds lib).

  Lemma same_apply f f' vs vs' w w' : st f = st f' -> map st vs = map st vs' -> agrees w w' -> same (apply lib f vs w) (apply lib f' vs' w').
  Proof.
    intros Ef Ev H.
    set (K := fun f vs w => if existsb is_fun (f :: vs) then (Stuck, w) else (Go (fst (lib (w_calls w) f (map (seen (w_vars w)) vs))),
        mk_world (put_all vs (snd (lib (w_calls w) f (map (seen (w_vars w)) vs))) (w_vars w)) (w_calls w ++ [(f, map (seen (w_vars w)) vs)]) (w_log w))).
    assert (HK : same (K f vs w) (K f' vs' w')).
    { unfold K. assert (X : existsb is_fun (f :: vs) = existsb is_fun (f' :: vs')) by (apply no_fun_agree; cbn; congruence). rewrite X. destruct (existsb is_fun (f' :: vs')); auto.
      destruct H as [Hv Hc]. pose proof (seen_all _ _ Hv vs vs' Ev) as Es. destruct (Hlib _ _ _ _ _ _ Hc Ef Es) as [L1 L2]. split; [cbn; congruence|]. split; cbn.
      - apply put_all_agree; assumption.
      - unfold calls_of in *. rewrite !map_app. cbn. congruence. }
    assert (L : forall k, In k [VOk; VErr; VSome] -> forall v v', map st [v] = map st [v'] -> same (Go (k v), w) (Go (k v'), w')).
    { intros k Hk v v' Ek. inversion Ek. apply same_go; [|exact H]. apply (fg_one st Hst); [|assumption]. simpl in Hk |- *. tauto. }
    change (same (match core f, vs with VName "Ok", [v] => (Go (VOk v), w) | VName "Err", [v] => (Go (VErr v), w) | VName "Some", [v] => (Go (VSome v), w) | _, _ => K f vs w end)
      (match core f', vs' with VName "Ok", [v] => (Go (VOk v), w') | VName "Err", [v] => (Go (VErr v), w') | VName "Some", [v] => (Go (VSome v), w') | _, _ => K f' vs' w' end)).
    destruct vs as [|v [|v2 vs]], vs' as [|v' [|v2' vs']]; try discriminate; t_head f f' Ef; try exact HK;
      repeat (match goal with |- context [match ?x with _ => _ end] => is_var x; destruct x end; try exact HK; try (apply L; [simpl; tauto|exact Ev])).
  Qed.
  Lemma same_method m v v' vs vs' w w' : st v = st v' -> map st vs = map st vs' -> agrees w w' -> same (method lib m v vs w) (method lib m v' vs' w').
  Proof.
    intros E Ev H. unfold method. destruct m as [|[| | |] [|[x| | |] [|t m]]]; auto;
      [|destruct t as [|ch| |]; auto; destruct ch as [[|] [|] [|] [|] [|] [|] [|] [|]]; auto; match goal with |- context [if ?b then _ else _] => destruct b end; [auto|apply same_apply; [reflexivity|cbn; congruence|exact H]]].
    destruct (String.eqb x "inspect_err").
    - split; [cbn; congruence|]. cbn [snd]. t_head v v' E; auto.
    - destruct (existsb (String.eqb x) passing); [|apply same_apply; cbn; congruence]. apply same_go; [|exact H]. pose proof (fg_head st Hst v v' E) as Hh.
      destruct (core v), (core v'); try contradiction; auto. cbn in Hh. do 2 (apply (fg_one st Hst); [simpl; tauto|]). exact Hh.
  Qed.
  Lemma same_collect k vs vs' w w' : In k [VTuple; VArray] -> map st vs = map st vs' -> agrees w w' -> same (collect k vs w) (collect k vs' w').
  Proof. intros Hk E H. unfold collect. rewrite (no_fun_agree _ _ E). destruct (existsb is_fun vs'); auto. apply same_go; [|exact H]. apply (fg_many st Hst); assumption. Qed.
  Lemma same_assign p l l' v v' w w' : (forall w w', agrees w w' -> same (l w) (l' w')) -> st v = st v' -> agrees w w' -> same (assign lib p l v w) (assign lib p l' v' w').
  Proof.
    intros Hl E Hw. unfold assign. rewrite (borrowed_agree p w w' Hw). destruct (borrowed p w').
    - split; [reflexivity|]. split; cbn; [|apply Hw]. apply put_agree; [exact E|]. apply Hw.
    - apply same_andthen; [auto|]. intros. apply same_apply; cbn; congruence.
  Qed.
  Lemma same_args es es' : Forall2 R es es' -> forall vs vs' n n' w w', map st vs = map st vs' -> agrees w w' -> (forall vs vs' w w', map st vs = map st vs' -> agrees w w' -> same (n vs w) (n' vs' w')) ->
    same (run_args run es vs n w) (run_args run es' vs' n' w').
  Proof.
    induction 1 as [|x y l l' H _ IH]; intros vs vs' n n' w w' Ev Hw Hn; cbn; [auto|]. apply same_andthen; [apply H; exact Hw|]. intros v v' u u' E Hu. apply IH; auto. rewrite !map_app. cbn. congruence.
  Qed.
  Lemma same_stmts b : forall b', map stmt_shape b = map stmt_shape b' -> Forall2 R (flat_map stmt_parts b) (flat_map stmt_parts b') ->
    forall v v' w w', st v = st v' -> agrees w w' -> same (run_stmts run b v w) (run_stmts run b' v' w').
  Proof.
    induction b as [|s b IH]; intros [|s' b'] Hm; try discriminate; intros HF v v' w w' E Hw; [apply same_go; auto|].
    cbn [map] in Hm. inversion Hm as [[Hs Hb]]. cbn [flat_map] in HF. destruct (Forall2_app_inv' R _ _ (stmt_count s s' Hs) _ _ HF) as [H1 H2]. clear HF Hm.
    destruct s, s'; try discriminate Hs; cbn [stmt_shape stmt_parts] in *; try (apply same_pair; auto; fail).
    - inversion Hs; subst. cbn [run_stmts]. destruct (fits (tl pat0) VUnit); auto.
    - inversion H1 as [|? ? ? ? E1 E2]; subst. inversion Hs as [[Ha Hp He Hl]]. subst. cbn [run_stmts]. apply same_andthen; [apply E1, Hw|].
      intros x x' u u' Ex Hu. pose proof (fits_agree (between pat0) x x' Ex) as Hf. destruct (fits (between pat0) x), (fits (between pat0) x'); try discriminate Hf; [| |auto].
      + apply IH; auto. apply agree_bind; [|exact Hu]. cbn in Hf. congruence.
      + destruct el, el0; try discriminate Hl; auto. inversion E2 as [|? ? ? ? E3 _]; subst. apply same_andthen; [apply E3, Hu|]. auto.
    - exact (IH b' Hb H2 VUnit VUnit w w' eq_refl Hw).
    - inversion H1 as [|? ? ? ? E1 _]; subst. inversion Hs; subst. cbn [run_stmts]. destruct semi0; (apply same_andthen; [apply E1, Hw|]); intros x x' u u' Ex Hu; apply IH; auto.
  Qed.
  Lemma same_scope b b' w w' : map stmt_shape b = map stmt_shape b' -> Forall2 R (flat_map stmt_parts b) (flat_map stmt_parts b') -> agrees w w' ->
    same (leave_block w (run_stmts run b VUnit w)) (leave_block w' (run_stmts run b' VUnit w')).
  Proof. intros. apply same_leave; [assumption|]. apply same_stmts; auto. Qed.
  Lemma same_arms v v' ms : st v = st v' -> forall ms', map arm_shape ms = map arm_shape ms' -> Forall2 R (flat_map arm_parts ms) (flat_map arm_parts ms') ->
    forall w w', agrees w w' -> same (run_arms run v ms w) (run_arms run v' ms' w').
  Proof.
    intros E. induction ms as [|m ms IH]; intros [|m' ms'] Hm; try discriminate; intros HF w w' Hw; cbn [run_arms]; auto.
    cbn [map] in Hm. inversion Hm as [[Hs Hb]]. cbn [flat_map] in HF. destruct m as [a pt ik g ar body c], m' as [a' pt' ik' g' ar' body' c']. inversion Hs; subst. cbn [arm_parts] in HF.
    assert (L : length (opt_list one g ++ [body]) = length (opt_list one g' ++ [body'])) by (rewrite !app_length; destruct g, g'; try discriminate; reflexivity).
    destruct (Forall2_app_inv' R _ _ L _ _ HF) as [H1 H2]. pose proof (fits_agree pt' v v' E) as Hf. destruct (fits pt' v) as [xs| |], (fits pt' v') as [xs'| |]; try discriminate Hf; auto.
    assert (Hx : agrees (bind_all xs w) (bind_all xs' w')) by (apply agree_bind; [cbn in Hf; congruence|exact Hw]).
    destruct g as [g|], g' as [g'|]; try discriminate; cbn in H1; inversion H1 as [|? ? ? ? E1 E2]; subst.
    - inversion E2 as [|? ? ? ? E3 _]; subst. apply same_andthen; [apply E1; auto|]. intros u u' x x' Eu Hx'. apply same_choose; auto. apply same_leave; [assumption|]. apply E3; auto.
    - apply same_leave; [assumption|]. apply E1; auto.
  Qed.
  Lemma stmts_count b : forall b', map stmt_shape b = map stmt_shape b' -> length (flat_map stmt_parts b) = length (flat_map stmt_parts b').
  Proof.
    induction b as [|s b IH]; intros [|s' b'] Hb; try discriminate; [reflexivity|]. inversion Hb. cbn. rewrite !app_length, (stmt_count s s') by assumption. rewrite (IH b') by assumption. reflexivity.
  Qed.
  Lemma place_node x y : shape x = shape y -> Forall2 R (parts x) (parts y) -> place x = place y.
  Proof.
    intros Hs Hp. destruct x, y; try discriminate Hs; try reflexivity; cbn [shape parts] in Hs, Hp; inversion Hs; subst; cbn [place].
    - cbn [app] in Hp. inversion Hp as [|? ? ? ? [E _] _]; subst. rewrite E. reflexivity.
    - reflexivity.
    - inversion Hp as [|? ? ? ? [E _] _]; subst. rewrite E. reflexivity.
  Qed.

  Lemma same_combine x v v' c c' w w' : st v = st v' -> (forall vs vs', map st vs = map st vs' -> same (c vs w) (c' vs' w')) -> agrees w w' -> same (combine x v c w) (combine x v' c' w').
  Proof.
    intros E Hc Hw. assert (K : forall k, In k [VOk; VErr; VSome] -> forall vs vs', map st vs = map st vs' ->
      same (andthen (c vs w) (fun u w => (Go (k u), w))) (andthen (c' vs' w') (fun u w => (Go (k u), w)))).
    { intros k Hk vs vs' Ev. apply same_andthen; [apply Hc, Ev|]. intros. apply same_go; [|assumption]. apply (fg_one st Hst); [|assumption]. simpl in Hk |- *. tauto. }
    unfold combine. pose proof (fg_head st Hst v v' E) as Hh. destruct (core v), (core v'); try contradiction; auto; cbn in Hh; try (subst s0).
    all: repeat match goal with |- same (if ?b then _ else _) _ => destruct b end; auto.
    all: try (apply K; [simpl; tauto|cbn; congruence]). all: try (apply Hc; cbn; congruence). all: try (apply same_go; [|exact Hw]; first [assumption|apply (fg_one st Hst); [simpl; tauto|assumption]]).
    all: try (match goal with H : VName _ = VName _ |- _ => injection H as H; subst end).
    all: repeat (match goal with |- context [match ?x with _ => _ end] => is_var x; destruct x end; auto).
    all: repeat match goal with |- same (if ?b then _ else _) _ => destruct b end; auto.
    all: try (apply K; [simpl; tauto|cbn; congruence]). all: try (apply Hc; cbn; congruence).
  Qed.
  Lemma same_bind hd vs vs' : map st vs = map st vs' -> outcome_of (bind_params hd vs) = outcome_of (bind_params hd vs').
  Proof.
    intros E. unfold bind_params. destruct (params hd) as [pt|]; [|reflexivity]. destruct vs as [|v [|v2 vs]], vs' as [|v' [|v2' vs']]; try discriminate; try (destruct pt; reflexivity).
    inversion E. pose proof (fits_agree pt v v' H0). destruct pt; assumption.
  Qed.
  Lemma closure_node x y : shape x = shape y -> Forall2 R (parts x) (parts y) ->
    is_closure x = is_closure y /\ forall vs vs' w w', map st vs = map st vs' -> agrees w w' -> same (run_closure run x vs w) (run_closure run y vs' w').
  Proof.
    intros Hs Hp. destruct x, y; try discriminate Hs; cbn [shape parts] in Hs, Hp; (split; [try reflexivity|intros vs vs' w w' Ev Hw; cbn [run_closure]; auto]).
    - inversion Hs; subst. inversion Hp as [|? ? ? ? (_ & Hr & _) _]; subst. pose proof (same_bind hd0 vs vs' Ev) as Hb.
      destruct (bind_params hd0 vs) as [xs| |], (bind_params hd0 vs') as [xs'| |]; try discriminate Hb; auto. cbn in Hb. injection Hb as Hb. apply same_leave; [exact Hw|].
      specialize (Hr (bind_all xs w) (bind_all xs' w')). destruct Hr as [H1 H2]; [apply agree_bind; [congruence|exact Hw]|].
      match goal with |- same (match ?a with _ => _ end) (match ?b with _ => _ end) => destruct a as [f u], b as [f' u'] end. cbn [fst snd] in H1, H2. destruct f, f'; try discriminate H1; auto. cbn in H1. injection H1 as H1. auto.
    - inversion Hs; subst. inversion Hp as [|? ? ? ? (_ & _ & Hc & _) _]; subst. cbn [is_closure]. rewrite Hc. reflexivity.
    - inversion Hs; subst. inversion Hp as [|? ? ? ? (_ & _ & _ & Hc) _]; subst. apply Hc; assumption.
  Qed.

  Lemma same_run_method m es es' v v' w w' : Forall2 R es es' -> st v = st v' -> agrees w w' -> same (run_method lib run m es v w) (run_method lib run m es' v' w').
  Proof.
    intros H E Hw. assert (Q : combinator m es = combinator m es').
    { unfold combinator. destruct m as [|[| | |] [|[x| | |] [|]]]; try reflexivity. inversion H as [|x1 y1 l l' (_ & _ & Hc & _) H2]; subst; [reflexivity|]. inversion H2; subst; [|reflexivity]. rewrite Hc. reflexivity. }
    assert (A : same (run_args run es [] (method lib m v) w) (run_args run es' [] (method lib m v') w')) by (apply same_args; [exact H|reflexivity|exact Hw|]; intros; apply same_method; assumption).
    unfold run_method. rewrite Q. destruct (combinator m es') as [x|]; [|exact A]. inversion H as [|x1 y1 l l' (_ & _ & _ & C) H2]; subst; [exact A|]. inversion H2; subst; [|exact A].
    apply same_combine; [exact E| |exact Hw]. intros. apply C; assumption.
  Qed.
  Ltac t_split := cbn [app parts] in *;
    repeat match goal with
    | H : Forall2 _ (_ :: _) (_ :: _) |- _ => inversion H; clear H; subst
    | H : Forall2 _ [] _ |- _ => clear H
    end.
  Ltac t_run := repeat (match goal with
    | H : runs_like _ _ _ ?e ?e' |- same (RunSpec.run _ _ ?e _) (RunSpec.run _ _ ?e' _) => apply H
    | |- same (andthen _ _) (andthen _ _) => apply same_andthen; [|intros]
    | |- same (leave_block _ _) (leave_block _ _) => apply same_leave
    | |- same (apply _ _ _ _) (apply _ _ _ _) => apply same_apply; cbn [map]; [congruence|congruence|]
    | |- same (method _ _ _ _ _) (method _ _ _ _ _) => apply same_method
    | |- same (run_method _ _ _ _ _ _) (run_method _ _ _ _ _ _) => apply same_run_method
    | |- same (collect _ _ _) (collect _ _ _) => apply same_collect; [simpl; tauto| |]
    | |- same (assign _ _ _ _ _) (assign _ _ _ _ _) => apply same_assign; [intros| |]
    | |- same (choose _ _ _ _) (choose _ _ _ _) => apply same_choose
    | |- same (again _ _ _) (again _ _ _) => apply same_again; [intros|]
    | |- same (run_args _ _ _ _ _) (run_args _ _ _ _ _) => apply same_args; [|reflexivity| |intros]
    | |- same (run_stmts _ _ _ _) (run_stmts _ _ _ _) => apply same_stmts
    | |- same (run_arms _ _ _ _) (run_arms _ _ _ _) => apply same_arms
    | H : st ?v = st ?v' |- same (match fits ?pt ?v with _ => _ end) _ =>
        let Hf := fresh in pose proof (fits_agree pt v v' H) as Hf; destruct (fits pt v), (fits pt v'); try discriminate Hf; cbn [outcome_of] in Hf; try (injection Hf as Hf)
    | H : st ?v = st ?v' |- same (match core ?v with _ => _ end) _ => t_head v v' H
    end; auto).
  Ltac t_len := repeat match goal with
    | H : Forall2 _ (flat_map stmt_parts ?b ++ _) (flat_map stmt_parts ?b' ++ _), K : map stmt_shape ?b = map stmt_shape ?b' |- _ =>
        let A := fresh in let B := fresh in destruct (Forall2_app_inv' R _ _ (stmts_count b b' K) _ _ H) as [A B]; clear H
    end.
  Ltac t_both := repeat match goal with
    | H : option_map _ ?o = option_map _ ?o' |- _ => is_var o; is_var o'; destruct o, o'; try discriminate H; clear H
    end.
  Ltac t_case := auto; repeat (match goal with
    | H : agrees ?w ?w' |- context [borrowed ?p ?w] => rewrite (borrowed_agree p w w' H)
    | |- same (match ?x with _ => _ end) _ => destruct x
    end; t_run; auto).
  Lemma run_node x y : shape x = shape y -> Forall2 R (parts x) (parts y) -> forall w w', agrees w w' -> same (run x w) (run y w').
  Proof.
    intros Hs Hp w w' Hw. destruct x, y; try discriminate Hs; cbn [shape parts] in Hs, Hp; try (apply same_pair; [reflexivity|exact Hw]); inversion Hs; subst; clear Hs; t_split; t_len; t_both;
      cbn [opt_list one] in *; t_split; cbn [RunSpec.run];
      repeat match goal with H : R ?a ?b |- context [place ?b] => replace (place b) with (place a) by (apply H) end; t_run; t_case.
    all: try match goal with H : Forall2 _ (one _) _ |- _ => unfold one in H; inversion_clear H; match goal with K : R _ _ |- _ => apply K; auto end end.
    all: try (apply same_pair; [cbn; congruence|assumption]).
    - apply same_go; [|exact Hw]. apply lookup_agree, Hw.
    - unfold one in Hp. t_split. match goal with H : R ?a ?b |- same (run ?a _) _ => apply H; auto end.
    - unfold one in Hp. t_split. match goal with H : R ?a ?b |- same (run ?a _) _ => apply H; auto end.
    - inversion Hp; subst; auto.
    - inversion Hp; subst. apply (same_args _ _ Hp); [reflexivity|exact Hw|]. intros; apply same_collect; [simpl; tauto|assumption..].
    - match goal with H : agrees ?u ?u' |- same (_, ?u) (_, ?u') => apply same_go; [|exact H]; apply content_agree, H end.
  Qed.
  Theorem runs_congruence : congruence (fun _ => True) R.
  Proof.
    constructor.
    - intros x y (Hp & H & Hc & C). split; [congruence|]. split; [|split; [congruence|]].
      + intros w w' Hw. destruct (H w' w (agree_sym _ _ Hw)) as [H1 H2]. split; [congruence|apply agree_sym; exact H2].
      + intros vs vs' w w' Ev Hw. destruct (C vs' vs w' w (eq_sym Ev) (agree_sym _ _ Hw)) as [H1 H2]. split; [congruence|apply agree_sym; exact H2].
    - intros x y z (P1 & H1 & Q1 & C1) (P2 & H2 & Q2 & C2). split; [congruence|]. split; [|split; [congruence|]].
      + intros w w' Hw. destruct (H1 w w' Hw) as [A1 A2]. destruct (H2 w' w' (agree_refl w')) as [B1 B2]. split; [congruence|exact (agree_trans _ _ _ A2 B2)].
      + intros vs vs' w w' Ev Hw. destruct (C1 vs vs' w w' Ev Hw) as [A1 A2]. destruct (C2 vs' vs' w' w' eq_refl (agree_refl w')) as [B1 B2]. split; [congruence|exact (agree_trans _ _ _ A2 B2)].
    - intros x y Hs _ Hp. split; [exact (place_node x y Hs Hp)|]. split; [exact (run_node x y Hs Hp)|exact (closure_node x y Hs Hp)].
  Qed.
  (** a value that was passed on is the value *)
  Definition ctx_free : Prop := forall v, st (match core v with VErr u => VErr (VCtx u) | _ => v end) = st v.
  Lemma passed e m sp1 sp2 sp3 f : In m passing -> m = "inspect_err" \/ ctx_free -> observer f -> R e (EMethodCall [] e [TPunct "." sp1; TIdent m sp2] sp3 [f] []).
  Proof.
    intros Hm Hc Hf. assert (Em : existsb (String.eqb m) passing = true) by (apply existsb_exists; exists m; split; [exact Hm|apply String.eqb_refl]).
    destruct (same_everywhere (fun _ => True) R runs_congruence (fun _ => I) e) as (_ & Hr & _ & Hq).
    split; [cbn [place]; rewrite Em; reflexivity|]. split; [|split; [cbn [is_closure]; rewrite Em; reflexivity|exact Hq]]. intros w w' Hw. assert (Hg : forall w, exists x, run f w = (Go x, w)).
    { intros u. destruct f; try contradiction; [exists VFun; reflexivity|]. destruct a; [|contradiction]. destruct p as [[|] [|[x [|] sp] [|]]]; try contradiction. eexists; reflexivity. }
    assert (Nc : combinator [TPunct "." sp1; TIdent m sp2] [f] = None) by (destruct Hm as [<-|[<-|[<-|[]]]]; reflexivity).
    destruct (Hr w w' Hw) as [H1 H2]. cbn [RunSpec.run]. destruct (run e w) as [f0 u], (run e w') as [f' u'].
    cbn [fst snd] in H1, H2. destruct f0 as [v|v|v| | |], f' as [v'|v'|v'| | |]; try discriminate H1; cbn [andthen]; auto. unfold run_method. rewrite Nc. cbn [run_args]. destruct (Hg u') as (x & ->). cbn [andthen app]. unfold method.
    cbn in H1. injection H1 as H1. destruct (String.eqb m "inspect_err") eqn:Ei.
    - split; [cbn; congruence|]. cbn [snd]. destruct (core v'); exact H2.
    - destruct Hc as [->|Hc]; [discriminate|]. rewrite Em. apply same_go; [|exact H2]. rewrite Hc. exact H1.
  Qed.
  Lemma calls_observe ms out : incl ms passing -> (forall m, In m ms -> m = "inspect_err" \/ ctx_free) -> calls_only ms out -> observing R out.
  Proof. intros Hi Hc H h o r Hin. destruct (H h o r Hin) as (Hn & m & sp1 & sp2 & sp3 & f & Hm & -> & Hf). unfold replaced. rewrite Hn. apply passed; auto. Qed.
  Lemma run_alike a vis s sp b a' vis' s' sp' b' : item_alike R (IFn a vis s sp b) (IFn a' vis' s' sp' b') -> forall w w', agrees w w' -> same (run_fn rounds lib b w) (run_fn rounds lib b' w').
  Proof.
    intros [Hs Hp] w w' Hw. cbn [item_shape item_parts] in *. inversion Hs as [[Ha Hv Hsg Hsp Hb]].
    assert (K : same (run (EBlock [] [] call_site b) w) (run (EBlock [] [] call_site b') w')) by (cbn [RunSpec.run]; apply same_scope; assumption).
    unfold run_fn. destruct (run (EBlock [] [] call_site b) w) as [f u], (run (EBlock [] [] call_site b') w') as [f' u']. destruct K as [K1 K2]. cbn [fst snd] in K1, K2.
    destruct f, f'; try discriminate K1; auto. cbn in K1. injection K1 as K1. auto.
  Qed.
End Run.
End Upto.

(** * The two instances *)
Lemma blind_exactly lib : blind exactly lib.
Proof.
  intros past past' f f' vs vs' H1 H2 H3. unfold exactly in *. rewrite !map_id in *. subst. assert (X : past = past').
  { revert past' H1. induction past as [|[g us] past IH]; intros [|[g' us'] past'] H; try discriminate; [reflexivity|]. unfold calls_of in H. cbn in H. rewrite !map_id in H. inversion H. f_equal. apply IH. assumption. }
  subst. auto.
Qed.
Lemma vars_exactly l : vars_of exactly l = l.
Proof. induction l as [|[x v] l IH]; [reflexivity|]. cbn. f_equal. exact IH. Qed.
Lemma calls_exactly l : calls_of exactly l = l.
Proof. induction l as [|[x v] l IH]; [reflexivity|]. unfold calls_of in *. cbn [map fst snd]. rewrite IH. unfold exactly. rewrite map_id. reflexivity. Qed.
Lemma same_exactly r r' : same_upto exactly r r' <-> same_run r r'.
Proof.
  unfold same_upto, same_run, agree_upto, agree. rewrite !vars_exactly, !calls_exactly. assert (F : forall f, flow_of exactly f = f) by (intros []; reflexivity). rewrite !F. reflexivity.
Qed.
Lemma strip_free : ctx_free strip.
Proof. intros v. rewrite <- (strip_core v). destruct (core v) eqn:E; cbn; auto; rewrite ?E; rewrite <- (strip_core v), E; reflexivity. Qed.

(** * More rounds *)
(** [r'] is what [r] is, unless [r] needs more rounds *)
Definition further (r r' : flow * world) : Prop := fst r <> Far -> r' = r.
Lemma further_refl r : further r r.
Proof. intros _. reflexivity. Qed.
Lemma further_andthen r r' n n' : further r r' -> (forall v w, further (n v w) (n' v w)) -> further (andthen r n) (andthen r' n').
Proof.
  intros H Hn F. destruct r as [f w]. assert (X : fst (f, w) <> Far) by (intros X; cbn in X; subst; apply F; reflexivity). rewrite (H X). destruct f; cbn in *; try reflexivity. apply Hn, F.
Qed.
Lemma further_leave w r r' : further r r' -> further (leave_block w r) (leave_block w r').
Proof. intros H F. rewrite H by exact F. reflexivity. Qed.
Lemma further_choose v y y' n n' w : further y y' -> further n n' -> further (choose v y n w) (choose v y' n' w).
Proof.
  intros Hy Hn. unfold choose. destruct (core v); try apply further_refl. repeat (match goal with |- context [match ?x with _ => _ end] => is_var x; destruct x end; auto using further_refl).
Qed.
Lemma further_again k b b' : (forall w, further (b w) (b' w)) -> forall k', k <= k' -> forall w, further (again k b w) (again k' b' w).
Proof.
  intros Hb. induction k as [|k IH]; intros k' Hk w F; [elim F; reflexivity|]. destruct k' as [|k']; [inversion Hk|]. apply le_S_n in Hk. cbn [again] in *.
  assert (X : fst (b w) <> Far) by (intros X; destruct (b w) as [f u]; cbn in X; subst; apply F; reflexivity). rewrite (Hb w X). destruct (b w) as [f u]. destruct f; try reflexivity; apply (IH k' Hk); exact F.
Qed.
Section More.
  Variables (n m : nat) (lib : library).
  Hypothesis Hnm : n <= m.
  Definition more (e : expr) : Prop := (forall w, further (run n lib e w) (run m lib e w)) /\ forall vs w, further (run_closure (run n lib) e vs w) (run_closure (run m lib) e vs w).
  Lemma more_args es : Forall more es -> forall vs k w, further (run_args (run n lib) es vs k w) (run_args (run m lib) es vs k w).
  Proof. induction 1 as [|x l H _ IH]; intros vs k w; cbn; [apply further_refl|]. apply further_andthen; [apply H|]. intros. apply IH. Qed.
  Lemma more_method mt es : Forall more es -> forall v w, further (run_method lib (run n lib) mt es v w) (run_method lib (run m lib) mt es v w).
  Proof.
    intros H v w. unfold run_method. destruct (combinator mt es) as [x|]; [|apply more_args, H]. destruct es as [|f [|]]; try (apply more_args, H). inversion H as [|? ? [_ C] _]; subst.
    unfold combine. destruct (core v); try apply further_refl.
    all: repeat match goal with |- further (if ?b then _ else _) _ => destruct b end; try apply further_refl; try apply C; try (apply further_andthen; [apply C|intros; apply further_refl]).
    repeat (match goal with |- context [match ?x with _ => _ end] => is_var x; destruct x end; try apply further_refl).
    all: repeat match goal with |- further (if ?b then _ else _) _ => destruct b end; try apply further_refl; try apply C; try (apply further_andthen; [apply C|intros; apply further_refl]).
  Qed.
  Lemma more_closure hd b vs w : (forall w, further (run n lib b w) (run m lib b w)) -> forall a o, further (run_closure (run n lib) (EClosure a hd o b) vs w) (run_closure (run m lib) (EClosure a hd o b) vs w).
  Proof.
    intros H a o. cbn [run_closure]. destruct (bind_params hd vs) as [xs| |]; try apply further_refl. apply further_leave. intros F. specialize (H (bind_all xs w)).
    destruct (run n lib b (bind_all xs w)) as [f u]. rewrite H; [reflexivity|]. intros X. cbn in X. subst. apply F. reflexivity.
  Qed.
  Lemma more_assign p l l' v w : (forall w, further (l w) (l' w)) -> further (assign lib p l v w) (assign lib p l' v w).
  Proof. intros H. unfold assign. destruct (borrowed p w); [apply further_refl|]. apply further_andthen; [apply H|]. intros; apply further_refl. Qed.
  Definition more_stmt (s : stmt) : Prop := forall r last w, (forall last w, further (run_stmts (run n lib) r last w) (run_stmts (run m lib) r last w)) ->
    further (run_stmts (run n lib) (s :: r) last w) (run_stmts (run m lib) (s :: r) last w).
  Lemma more_stmts b : Forall more_stmt b -> forall last w, further (run_stmts (run n lib) b last w) (run_stmts (run m lib) b last w).
  Proof. induction 1 as [|s b H _ IH]; intros last w; [apply further_refl|]. apply H, IH. Qed.
  Definition more_arm (a : arm) : Prop := forall v r w, (forall w, further (run_arms (run n lib) v r w) (run_arms (run m lib) v r w)) ->
    further (run_arms (run n lib) v (a :: r) w) (run_arms (run m lib) v (a :: r) w).
  Lemma more_arms v b : Forall more_arm b -> forall w, further (run_arms (run n lib) v b w) (run_arms (run m lib) v b w).
  Proof. induction 1 as [|s b H _ IH]; intros w; [apply further_refl|]. apply H, IH. Qed.
  Ltac t_more := repeat (match goal with
    | H : more ?e |- further (run _ _ ?e _) (run _ _ ?e _) => apply (proj1 H)
    | H : forall w, further _ _ |- _ => apply H
    | |- further (andthen _ _) (andthen _ _) => apply further_andthen; [|intros]
    | |- further (leave_block _ _) (leave_block _ _) => apply further_leave
    | |- further (assign _ _ _ _ _) (assign _ _ _ _ _) => apply more_assign; intros
    | |- further (choose _ _ _ _) (choose _ _ _ _) => apply further_choose
    | |- further (again _ _ _) (again _ _ _) => apply further_again; [intros|assumption]
    | |- further (run_args _ _ _ _ _) (run_args _ _ _ _ _) => apply more_args; assumption
    | |- further (run_method _ _ _ _ _ _) (run_method _ _ _ _ _ _) => apply more_method; assumption
    | |- further (run_stmts _ _ _ _) (run_stmts _ _ _ _) => apply more_stmts; assumption
    | |- further (run_arms _ _ _ _) (run_arms _ _ _ _) => apply more_arms; assumption
    | |- further (match ?x with _ => _ end) _ => first [is_var x; destruct x; cbn [optP] in * | destruct x eqn:?]
    end; auto using further_refl).
  Lemma more_all : (forall e, more e) /\ (forall s, more_stmt s) /\ (forall i : item, True) /\ (forall i : impl_item, True) /\ (forall i : trait_item, True) /\ (forall r, more_arm r) /\
    (forall x : fieldv, True) /\ (forall x : mac, True) /\ (forall v : evaluable, True).
  Proof.
    apply syntax_ind; intros; auto; try (split; [|solve [intros vs w; first [apply further_refl|apply more_closure; apply H|cbn [run_closure]; apply H]]]); try (intros w; apply further_refl).
    all: try (unfold more_stmt, more_arm; intros; cbn [run run_stmts run_arms]; t_more; fail).
    all: intros r last w Hr; first [apply further_refl|apply Hr].
  Qed.
End More.
Theorem run_more n m lib e w : n <= m -> fst (run n lib e w) <> Far -> run m lib e w = run n lib e w.
Proof. intros H. apply (proj1 (proj1 (more_all n m lib H) e) w). Qed.
