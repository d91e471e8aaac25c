(** The walker on the small part of Rust with hooq attributes.  *)
From Coq Require Import String Ascii Bool Arith Lia List.
From Verif Require Import Base Tokens Method Paths Context Flavor Attrs Syntax Render Walker AttrSpec SiteSpec ProgSpec WalkSpec NodeSpec GrammarSpec MeaningSpec MeaningProofs SmallRust SmallRustProofs ClosedProofs SimpleSpec SimpleProofs.
Import ListNotations.
Open Scope string_scope.
Open Scope list_scope.
Open Scope monad_scope.

(** [P] for all but the last, [Q] for the last *)
Definition last_all {A} (P Q : A -> Prop) : list A -> Prop :=
  fix go l := match l with [] => True | x :: r => match r with [] => Q x | _ => P x /\ go r end end.

Section Ready.
  Variable fine : list (list attr) -> list attr -> Prop.
  (** the attributes at every place are fine where they are read, and not hooq's where they are not; [k]: the attributes around *)
  Fixpoint ready (k : list (list attr)) (t : bool) (e : expr) {struct e} : Prop :=
    match e with
    | EContinue a _ | ELit a _ _ | EPath a _ => if t then fine k a else foreign a = a
    | ETry a e0 _ | EAwait a e0 _ | EField a e0 _ | ELet a _ e0 | EParen a _ e0 | EReference a _ e0 | EUnary a _ e0 => fine k a /\ ready (push a k) false e0
    | EReturn a _ o | EBreak a _ o => fine k a /\ match o with Some e0 => ready (push a k) false e0 | None => True end
    | EArray a _ es _ | ETuple a _ es _ => fine k a /\ fold_right and True (map (ready (push a k) false) es)
    | EAssign a l _ r => fine k a /\ bare l = l /\ ready (push a k) false r
    | EBlock a _ _ b | ELoop a _ _ b | EUnsafe a _ _ b => fine k a /\ last_all (stmt_ready (push a k) false) (stmt_ready (push a k) true) b
    | EBinary a l _ r | EIndex a l _ r => fine k a /\ ready (push a k) false l /\ ready (push a k) false r
    | ERange a s _ t => fine k a /\ match s with Some l => ready (push a k) false l | None => True end /\ match t with Some r => ready (push a k) false r | None => True end
    | ECall a f _ es _ | EMethodCall a f _ _ es _ => fine k a /\ ready (push a k) false f /\ fold_right and True (map (ready (push a k) false) es)
    | EForLoop a _ e0 _ b | EWhile a _ e0 _ b => fine k a /\ ready (push a k) false e0 /\ last_all (stmt_ready (push a k) false) (stmt_ready (push a k) true) b
    | EIf a _ c _ b _ el => fine k a /\ ready (push a k) false c /\ last_all (stmt_ready (push a k) false) (stmt_ready (push a k) true) b /\ match el with Some e0 => ready (push a k) false e0 | None => True end
    | EClosure a _ _ e0 => fine k a /\ ready (push a k) true e0
    | EMatch a _ e0 _ ms => fine k a /\ ready (push a k) false e0 /\ fold_right and True (map (arm_ready (push a k)) ms)
    | _ => False
    end
  with stmt_ready (k : list (list attr)) (t : bool) (s : stmt) {struct s} : Prop :=
    match s with
    | SLocal a _ _ => foreign a = a
    | SLocalInit a _ e _ el _ => fine k a /\ ready (push a k) false e /\ match el with Some e0 => ready (push a k) false e0 | None => True end
    | SExpr e None => ready k t e
    | SExpr e (Some _) => ready k false e
    | _ => False
    end
  with arm_ready (k : list (list attr)) (m : arm) {struct m} : Prop :=
    match m with Arm a _ _ gd _ body _ => foreign a = a /\ match gd with Some e0 => ready k false e0 | None => True end /\ ready k true body end.
  Definition guard_ready (k : list (list attr)) (gd : option expr) : Prop := match gd with Some e0 => ready k false e0 | None => True end.
  Definition all_ready (k : list (list attr)) (es : list expr) : Prop := fold_right and True (map (ready k false) es).
  Definition arms_ready (k : list (list attr)) (ms : list arm) : Prop := fold_right and True (map (arm_ready k) ms).
  Definition block_ready (k : list (list attr)) (b : list stmt) : Prop := last_all (stmt_ready k false) (stmt_ready k true) b.

  (** * From the nodes *)
  Definition node_fine (n : node) : Prop := if read_here n then fine (kn (n_frames n)) (n_attrs n) else foreign (n_attrs n) = n_attrs n.
  Definition dead (fr : list frame) : bool := existsb is_dead fr.
  Definition sees (e0 : expr) : Prop := forall e t fr, bare e = e0 -> no_hooks e -> Forall node_fine (nodes t fr e) ->
    (dead fr = false -> ready (kn fr) t e) /\ (dead fr = true -> bare e = e).
  Definition args_see (es0 : list expr) (_ : list tt) : Prop := forall es fr, map bare es = es0 -> hooks_of (flat_map subs es) = [] -> Forall node_fine (flat_map (nodes false fr) es) ->
    (dead fr = false -> all_ready (kn fr) es) /\ (dead fr = true -> map bare es = es).
  Definition arms_see (ms0 : list arm) : Prop := forall ms fr, map arm_bare ms = ms0 -> hooks_of (flat_map arm_subs ms) = [] -> Forall node_fine (flat_map (arm_nodes fr) ms) ->
    (dead fr = false -> arms_ready (kn fr) ms) /\ (dead fr = true -> map arm_bare ms = ms).
  Definition guard_sees (_ : list tt) (gd0 : option expr) : Prop := forall gd fr, option_map bare gd = gd0 -> hooks_of (opt_list subs gd) = [] -> Forall node_fine (opt_list (nodes false fr) gd) ->
    (dead fr = false -> guard_ready (kn fr) gd) /\ (dead fr = true -> option_map bare gd = gd).
  Definition block_sees (b0 : list stmt) : Prop := forall b fr, map stmt_bare b = b0 -> hooks_of (flat_map stmt_subs b) = [] -> Forall node_fine (last_map (stmt_nodes false fr) (stmt_nodes true fr) b) ->
    (dead fr = false -> block_ready (kn fr) b) /\ (dead fr = true -> map stmt_bare b = b).
  Lemma not_hook h o r : no_hooks (EHook h o r) -> False.
  Proof. unfold no_hooks. cbn [subs]. rewrite hooks_app. intro H. apply app_eq_nil in H. destruct H as [_ H]. discriminate. Qed.
  Lemma fine_live fr a : node_fine (here PNode fr a) -> (dead fr = false -> fine (kn fr) a) /\ (dead fr = true -> foreign a = a).
  Proof. unfold node_fine, read_here, dead. cbn. intro H. split; intro D; rewrite D in H; exact H. Qed.
  Lemma fine_leaf t fr a : node_fine (here (leaf_place t) fr a) -> (dead fr = false -> if t then fine (kn fr) a else foreign a = a) /\ (dead fr = true -> foreign a = a).
  Proof. unfold node_fine, read_here, dead. destruct t; cbn; intro H; split; intro D; try rewrite D in H; exact H. Qed.
  Lemma fine_arm fr a : node_fine (here PArm fr a) -> foreign a = a.
  Proof. exact (fun H => H). Qed.
  Lemma last_two {A B} (f g : A -> list B) x y l : last_map f g (x :: y :: l) = f x ++ last_map f g (y :: l).
  Proof. reflexivity. Qed.

  Ltac no_hook := repeat match goal with
    | H : no_hooks _ |- _ => unfold no_hooks in H; cbn [subs opt_list stmt_subs arm_subs] in H
    | H : hooks_of (_ ++ _) = [] |- _ => rewrite hooks_app in H; apply app_eq_nil in H; destruct H
    | H : hooks_of (flat_map _ (_ :: _)) = [] |- _ => cbn [flat_map] in H
    | H : hooks_of [] = [] |- _ => clear H
    | H : hooks_of [_] = [] |- _ => clear H
    end.
  Ltac split_nodes := repeat match goal with
    | H : Forall node_fine (_ :: _) |- _ => apply Forall_cons_iff in H; destruct H
    | H : Forall node_fine (_ ++ _) |- _ => apply Forall_app in H; destruct H
    end.
  Ltac inv_bare H := match type of H with bare ?e = _ =>
      destruct e; try discriminate H; try (match goal with N : no_hooks (EHook _ _ _) |- _ => destruct (not_hook _ _ _ N) end); cbn [bare] in H;
      repeat match goal with o : option expr |- _ => destruct o; cbn [option_map] in H; try discriminate H end; injection H; clear H; intros; subst end.
  Ltac use_all := repeat match goal with
    | H : node_fine (here PNode _ _) |- _ => apply fine_live in H; destruct H
    | S : sees (bare ?e), N : hooks_of (subs ?e) = [], F : Forall node_fine (nodes ?t ?fr ?e) |- _ => specialize (S e t fr eq_refl N F); destruct S; clear N
    | S : args_see (map bare ?e) _, N : hooks_of (flat_map subs ?e) = [], F : Forall node_fine (flat_map (nodes false ?fr) ?e) |- _ => specialize (S e fr eq_refl N F); destruct S; clear N
    | S : arms_see (map arm_bare ?e), N : hooks_of (flat_map arm_subs ?e) = [], F : Forall node_fine (flat_map (arm_nodes ?fr) ?e) |- _ => specialize (S e fr eq_refl N F); destruct S; clear N
    | S : block_sees (map stmt_bare ?e), N : hooks_of (flat_map stmt_subs ?e) = [], F : Forall node_fine (last_map (stmt_nodes false ?fr) (stmt_nodes true ?fr) ?e) |- _ => specialize (S e fr eq_refl N F); destruct S; clear N
    end; unfold dead in *; cbn [existsb is_dead orb] in *.
  Ltac conclude := split; intro; repeat match goal with D : ?x = ?b, H : ?x = ?b -> _ |- _ => specialize (H D) end; [cbn [ready stmt_ready arm_ready]; repeat split; assumption|cbn [bare option_map map stmt_bare arm_bare]; congruence].
  Ltac expr_case := let e := fresh "e" in let B := fresh "B" in let N := fresh "N" in let F := fresh "F" in
    intros e ? ? B N F; inv_bare B; cbn [nodes opt_list] in F; no_hook; split_nodes; use_all; conclude.
  Lemma sees_name x sp : sees (name x sp).
  Proof. intros e t fr B N F. inv_bare B. cbn [nodes] in F. split_nodes. match goal with H : node_fine _ |- _ => apply fine_leaf in H; destruct H end. conclude. Qed.
  Lemma sees_far x sp hs : sees (far x sp hs).
  Proof. intros e t fr B N F. inv_bare B. cbn [nodes] in F. split_nodes. match goal with H : node_fine _ |- _ => apply fine_leaf in H; destruct H end. conclude. Qed.
  Definition stmt_sees (s0 : stmt) : Prop := forall s t fr, stmt_bare s = s0 -> hooks_of (stmt_subs s) = [] -> Forall node_fine (stmt_nodes t fr s) ->
    (dead fr = false -> stmt_ready (kn fr) t s) /\ (dead fr = true -> stmt_bare s = s).
  Lemma sees_stmt s0 b0 : stmt_sees s0 -> block_sees b0 -> block_sees (s0 :: b0).
  Proof.
    intros S B [|s b] fr H N F; [discriminate|]. injection H as H1 H2. cbn [flat_map] in N. rewrite hooks_app in N. apply app_eq_nil in N. destruct N as [N1 N2]. destruct b as [|s2 b].
    - destruct (S s true fr H1 N1 F) as [L D]. split; intro Q; [exact (L Q)|]. cbn [map]. rewrite (D Q). reflexivity.
    - rewrite last_two in F. apply Forall_app in F. destruct F as [F1 F2]. destruct (S s false fr H1 N1 F1) as [L D]. destruct (B (s2 :: b) fr H2 N2 F2) as [Lb Db].
      split; intro Q; [split; [exact (L Q)|exact (Lb Q)]|]. cbn [map] in *. rewrite (D Q), (Db Q). reflexivity.
  Qed.
  Lemma sees_expr e semi : sees e -> stmt_sees (SExpr e semi).
  Proof.
    intros S s t fr B N F. destruct s as [| | |e1 semi1|]; try discriminate B. injection B as <- ->. cbn [stmt_subs] in N. cbn [stmt_nodes] in F. destruct semi; cbn [stmt_ready stmt_bare].
    - rewrite andb_false_r in F. destruct (S e1 _ _ eq_refl N F) as [L D]. split; intro Q; [exact (L Q)|rewrite (D Q); reflexivity].
    - rewrite andb_true_r in F. destruct (S e1 _ _ eq_refl N F) as [L D]. split; intro Q; [exact (L Q)|rewrite (D Q); reflexivity].
  Qed.
  Lemma sees_let pt e semi : sees e -> stmt_sees (SLocalInit [] pt e [] None semi).
  Proof.
    intros S s t fr B N F. destruct s as [|a1 pt1 e1 ek1 el1 semi1| | |]; try discriminate B. injection B; clear B; intros. destruct el1; [discriminate|]. subst. cbn [stmt_subs opt_list] in N. cbn [stmt_nodes opt_list] in F.
    no_hook. split_nodes. use_all. split; intro Q; [repeat split; auto|]. cbn [stmt_bare option_map]. f_equal; auto.
  Qed.
  Lemma sees_local pt semi : stmt_sees (SLocal [] pt semi).
  Proof.
    intros s t fr B N F. destruct s as [a1 pt1 semi1| | | |]; try discriminate B. cbn [stmt_nodes] in F. apply Forall_cons_iff in F. destruct F as [F _]. change (foreign a1 = a1) in F.
    split; intro Q; [exact F|]. cbn [stmt_bare]. rewrite F. reflexivity.
  Qed.
  Lemma sees_let_else pt e k sp eb semi : sees e -> block_sees eb -> stmt_sees (SLocalInit [] pt e k (Some (EBlock [] [] sp eb)) semi).
  Proof.
    intros S Sb s t fr B N F. destruct s as [|a1 pt1 e1 ek1 [el1|] semi1| | |]; try discriminate B. cbn [stmt_bare option_map] in B. injection B; clear B; intros. cbn [stmt_subs opt_list] in N. cbn [stmt_nodes opt_list] in F.
    destruct el1; try discriminate; [|exfalso; rewrite hooks_app in N; apply app_eq_nil in N; exact (not_hook _ _ _ (proj2 N))]. match goal with H : bare (EBlock _ _ _ _) = _ |- _ => cbn [bare] in H; injection H; clear H; intros end.
    subst. cbn [subs nodes] in *. no_hook. split_nodes. use_all. split; intro Q.
    - split; [auto|split; [auto|]]. split; [auto|]. match goal with H : _ -> block_ready _ _ |- _ => exact (H Q) end.
    - cbn [stmt_bare option_map bare]. repeat match goal with D : ?x = ?b, H : ?x = ?b -> _ |- _ => specialize (H D) end. congruence.
  Qed.
  Lemma sees_arm pt i gd q g e c ms : guard_sees i gd -> sees e -> arms_see ms -> arms_see (an_arm pt i gd q g e c :: ms).
  Proof.
    intros G S A [|m l] fr B N F; [discriminate|]. destruct m as [a1 pt1 ik1 gu1 ar1 bo1 co1]. injection B; clear B; intros. subst. cbn [flat_map] in N, F. rewrite hooks_app in N. apply app_eq_nil in N. destruct N as [N1 N2].
    apply Forall_app in F. destruct F as [F1 F2]. cbn [arm_subs] in N1. cbn [arm_nodes] in F1. apply Forall_cons_iff in F1. destruct F1 as [Fa F1]. apply fine_arm in Fa.
    rewrite hooks_app in N1. apply app_eq_nil in N1. destruct N1 as [N0 N1]. apply Forall_app in F1. destruct F1 as [F0 F1].
    destruct (G gu1 _ eq_refl N0 F0) as [Lg Dg]. destruct (S bo1 _ _ eq_refl N1 F1) as [L D]. destruct (A l fr eq_refl N2 F2) as [Ll Dl].
    split; intro Q; [split; [split; [exact Fa|split; [exact (Lg Q)|exact (L Q)]]|exact (Ll Q)]|]. cbn [map arm_bare]. rewrite (D Q), (Dl Q), (Dg Q), Fa. reflexivity.
  Qed.
  Theorem all_see :
    (forall e, post false e -> sees e) /\ (forall e, un false e -> sees e) /\ (forall e, oper false e -> sees e) /\ (forall e, cond false e -> sees e) /\ (forall e, full false e -> sees e) /\
    (forall es cs, args false es cs -> args_see es cs) /\ (forall ms, arms false ms -> arms_see ms) /\ (forall i gd, guard false i gd -> guard_sees i gd) /\ (forall b, block false b -> block_sees b).
  Proof.
    apply (tree_mut false sees sees sees sees sees args_see arms_see guard_sees block_sees).
    1-43: intros; try discriminate; try assumption.
    1: apply sees_name.
    1: apply sees_far.
    all: try solve [expr_case].
    - intros e t fr B N F. inv_bare B. cbn [nodes] in F. split_nodes. match goal with H : node_fine _ |- _ => apply fine_leaf in H; destruct H end. conclude.
    - intros e t fr B N F. inv_bare B. match goal with H : map bare ?l = [] |- _ => destruct l; [|discriminate] end. cbn [nodes flat_map] in F. split_nodes. use_all. split; intro D; [split; [auto|exact I]|]. cbn [bare map]. f_equal. auto.
    - intros e t fr B N F. inv_bare B. cbn [nodes] in F. no_hook. split_nodes.
      match goal with H : bare ?f = name _ _, K : hooks_of (subs ?f) = [], L : Forall node_fine (nodes ?u ?fr ?f) |- _ => destruct (sees_name _ _ f u fr H K L); clear H K L end. use_all. conclude.
    - intros e t fr B N F. inv_bare B. cbn [nodes] in F. no_hook. split_nodes.
      match goal with H : bare ?f = far _ _ _, K : hooks_of (subs ?f) = [], L : Forall node_fine (nodes ?u ?fr ?f) |- _ => destruct (sees_far _ _ _ f u fr H K L); clear H K L end. use_all. conclude.
    - intros e t fr B N F. inv_bare B. cbn [nodes] in F. no_hook. split_nodes. use_all. match goal with H : true = true -> _ |- _ => specialize (H eq_refl) end. conclude.
    - intros e t fr B N F. inv_bare B. cbn [nodes] in F. split_nodes. match goal with H : node_fine _ |- _ => apply fine_leaf in H; destruct H end. conclude.
    - intros es fr B N F. apply map_eq_nil in B. subst. split; intro; [exact I|reflexivity].
    - intros e Fe S es fr B N F. destruct es as [|e1 [|e2 es]]; try discriminate. injection B as <-. cbn [flat_map] in F. no_hook. split_nodes. use_all. unfold all_ready. conclude.
    - intros e sp es cs Fe S A IH [|e1 l] fr B N F; [discriminate|]. injection B as <- <-. cbn [flat_map] in F. no_hook. split_nodes. use_all. unfold all_ready. conclude.
    - intros ms fr B N F. apply map_eq_nil in B. subst. split; intro; [exact I|reflexivity].
    - intros pt i gd q g e P G Sg Fe S. apply sees_arm; [exact Sg|exact S|]. intros ms fr B N F. apply map_eq_nil in B. subst. split; intro; [exact I|reflexivity].
    - intros. apply sees_arm; assumption.
    - intros. apply sees_arm; assumption.
    - intros gd fr B N F. destruct gd; [discriminate|]. split; intro; [exact I|reflexivity].
    - intros a e O S gd fr B N F. destruct gd as [x|]; [|discriminate]. injection B as B. cbn [opt_list] in N, F. destruct (S x false fr B N F) as [L D]. split; intro Q; [exact (L Q)|]. cbn [option_map]. rewrite (D Q). reflexivity.
    - intros b fr B N F. apply map_eq_nil in B. subst. split; intro; [exact I|reflexivity].
    - intros e Fe S. apply sees_stmt; [apply sees_expr, S|]. intros b fr B N F. apply map_eq_nil in B. subst. split; intro; [exact I|reflexivity].
    - intros. apply sees_stmt; [apply sees_let|]; assumption.
    - intros. apply sees_stmt; [apply sees_local|]; assumption.
    - intros. apply sees_stmt; [apply sees_let_else|]; assumption.
    - intros. apply sees_stmt; [apply sees_expr|]; assumption.
    - intros. apply sees_stmt; [apply sees_expr|]; assumption.
  Qed.
End Ready.

(** * The walker *)
Lemma over_now E c e : walk_expr E (Some []) c e = walk_expr E None c (set_attrs [] e).
Proof. destruct e; reflexivity. Qed.
Lemma head_ready (fine : list (list attr) -> list attr -> Prop) k e : ready fine k true e -> get_attrs (bare e) = Some [] -> exists a, get_attrs e = Some a /\ fine k a /\ foreign a = [].
Proof. destruct e; cbn [ready bare get_attrs]; intros R H; try contradiction; injection H as H; eexists; (split; [reflexivity|]); split; try exact H; try exact R; apply R. Qed.
Lemma bare_set e a : get_attrs e = Some a -> foreign a = [] -> bare (set_attrs [] e) = bare e.
Proof. destruct e; cbn [get_attrs set_attrs]; intros H; try discriminate; injection H as ->; intro H; cbn [bare]; rewrite H; reflexivity. Qed.
Lemma ready_set (fine : list (list attr) -> list attr -> Prop) k e a : (forall k, fine k []) -> get_attrs e = Some a -> ready fine k true e -> ready fine (push a k) false (set_attrs [] e).
Proof. intros N. destruct e; cbn [ready set_attrs get_attrs]; intros H R; try discriminate; injection H as ->; try contradiction; try reflexivity; (split; [apply N|apply R]). Qed.
Section Walk.
  Variables (E : env) (fine : list (list attr) -> list attr -> Prop) (okc : list (list attr) -> ctx -> Prop) (K : bool -> expr -> expr -> Prop).
  Hypothesis Hparse : ev_parse E = rust_parse.
  Hypothesis Hnil : forall k, fine k [].
  Hypothesis Hattrs : forall k a c cnt, fine k a -> okc k c -> exists sk c', handle E a c cnt = Ok ((foreign a, sk, c'), cnt) /\ okc (push a k) c'.
  Hypothesis Hsub : forall k c, okc k c -> okc k (for_sub_scope c).
  Hypothesis Hfn : forall k c i, okc k c -> okc k (update_fn_info c i).
  Hypothesis Hrender : forall k c, okc k c -> renders (ev_str E) K c.

  Definition hook_ok (x : expr) : Prop :=
    match x with EHook h o r => exists exc, (exc = false -> h_consumed h = None) /\ K exc (actual o) r | _ => True end.
  Definition good (e : expr) : Prop := etoks (actual e) = etoks e /\ Forall hook_ok (subs e).
  Definition sgood (s : stmt) : Prop := stoks (stmt_actual s) = stoks s /\ Forall hook_ok (stmt_subs s).
  Definition mgood (m : arm) : Prop := armtoks (arm_actual m) = armtoks m /\ Forall hook_ok (arm_subs m).
  Definition made (P : expr -> Prop) (e : expr) : Prop := P (actual e) /\ good e.
  Definition gargs (es : list expr) (cs : list tt) : Prop := args true (map actual es) cs /\ Forall good es.
  Definition garms (ms : list arm) : Prop := arms true (map arm_actual ms) /\ Forall mgood ms.
  Definition gblock (b : list stmt) : Prop := block true (map stmt_actual b) /\ Forall sgood b.

  Lemma good_args es : Forall good es -> map etoks (map actual es) = map etoks es /\ Forall hook_ok (flat_map subs es).
  Proof.
    induction 1 as [|e es [T H] _ [IH1 IH2]]; [split; constructor|]. cbn. rewrite T, IH1. split; [reflexivity|]. apply Forall_app. auto.
  Qed.
  Lemma good_arms ms : Forall mgood ms -> flat_map armtoks (map arm_actual ms) = flat_map armtoks ms /\ Forall hook_ok (flat_map arm_subs ms).
  Proof.
    induction 1 as [|e es [T H] _ [IH1 IH2]]; [split; constructor|]. cbn [map flat_map]. rewrite T, IH1. split; [reflexivity|]. apply Forall_app. auto.
  Qed.
  Lemma good_block b : Forall sgood b -> flat_map stoks (map stmt_actual b) = flat_map stoks b /\ Forall hook_ok (flat_map stmt_subs b).
  Proof.
    induction 1 as [|e es [T H] _ [IH1 IH2]]; [split; constructor|]. cbn. rewrite T, IH1. split; [reflexivity|]. apply Forall_app. auto.
  Qed.
  Lemma good_written e : no_hooks e -> actual e = e /\ good e.
  Proof.
    intro H. pose proof (proj1 actual_written e H) as A. split; [exact A|]. split; [rewrite A; reflexivity|]. unfold no_hooks, hooks_of in H. clear A.
    induction (subs e) as [|x l IH]; [constructor|]. cbn [flat_map] in H. apply app_eq_nil in H. destruct H as [H1 H2]. constructor; [|apply IH, H2]. destruct x; try exact I. discriminate H1.
  Qed.

  Lemma hook_applied b e src k q a0 c cnt : okc a0 c -> made (post true) e ->
    exists e' exc cnt', hook_expr E b e src k q c cnt = Ok ((e', exc), cnt') /\ made (post true) e' /\ (exc = true -> forall a sp, made (post true) (mark_consumed a sp e')) /\
      (forall a sp, etoks (actual (mark_consumed a sp e')) = etoks (actual e')) /\ (starts_block (etoks (actual e')) = true -> starts_block (etoks (actual e)) = true).
  Proof.
    intros O (P & T & H). assert (N : forall a sp, etoks (actual (mark_consumed a sp e)) = etoks (actual e)) by (intros a sp; destruct e; reflexivity).
    unfold hook_expr. destruct b; cbn [negb]; [|exists e, false, cnt; repeat split; auto; discriminate].
    destruct (is_hook_target c k) eqn:Hk; cbn [negb]; [|do 3 eexists; repeat split; auto; discriminate].
    destruct (Hrender a0 c O k (get_count k (count_up k cnt)) src (actual e) q P) as (r & Pr & R & Sr & Kr). rewrite T in R. unfold render_expr. rewrite R. cbn [bindR].
    rewrite Hparse. rewrite (parse_printed true) by (apply f_oper, o_un, u_post; exact Pr). do 3 eexists. split; [reflexivity|].
    assert (Ok : forall h, (m_exc (fval (cx_method c)) = false -> h_consumed h = None) -> made (post true) (EHook h e r)).
    { intros h Hh. split; [exact Pr|]. split; [reflexivity|]. cbn [subs]. apply Forall_app. split; [exact H|]. constructor; [|constructor]. exists (m_exc (fval (cx_method c))). split; assumption. }
    split; [apply Ok; reflexivity|]. split; [intros X a sp; apply Ok; congruence|]. split; [reflexivity|exact Sr].
  Qed.

  Definition face (e e' : expr) : Prop :=
    (blocky e = true -> blocky (actual e') = true) /\ is_post (actual e') = is_post e /\ top (actual e') = top e /\ (starts_block (etoks (actual e')) = true -> starts_block (etoks e) = true) /\
    (is_post e = false \/ blocky e = true -> call_path e' = None).
  Definition walks (P : expr -> Prop) (e0 : expr) : Prop :=
    forall e k c cnt, bare e = e0 -> ready fine k false e -> okc k c -> exists e' cnt', walk_expr E None c e cnt = Ok (e', cnt') /\ made P e' /\ face e0 e'.
  Definition args_walk (es0 : list expr) (cs : list tt) : Prop :=
    forall es k c cnt, map bare es = es0 -> all_ready fine k es -> okc k c -> exists es' cnt', mapM (walk_expr E None c) es cnt = Ok (es', cnt') /\ gargs es' cs.
  Definition arms_walk (ms0 : list arm) : Prop :=
    forall ms k c cnt, map arm_bare ms = ms0 -> arms_ready fine k ms -> okc k c -> exists ms' cnt', mapM (walk_arm E c) ms cnt = Ok (ms', cnt') /\ garms ms'.
  Definition guard_walks (i : list tt) (gd0 : option expr) : Prop :=
    forall gd k c cnt, option_map bare gd = gd0 -> guard_ready fine k gd -> okc k c -> exists gd' cnt', optM (walk_expr E None c) gd cnt = Ok (gd', cnt') /\ guard true i (option_map actual gd') /\
      opt_toks etoks (option_map actual gd') = opt_toks etoks gd' /\ Forall hook_ok (opt_list subs gd').
  Definition block_walks (b0 : list stmt) : Prop :=
    forall b k tk c cnt i, map stmt_bare b = b0 -> block_ready fine k b -> is_target tk = true -> okc k c -> tail_fine tk b0 ->
    exists b' cnt', mapiM (fun j s => walk_stmt E (pos_kind tk (i + List.length b) j) c s) i b cnt = Ok (b', cnt') /\ gblock b'.
  Lemma w_block b k tk c cnt : block_walks (map stmt_bare b) -> block_ready fine k b -> okc k c -> tk = BlockTail ->
    exists b' cnt', mapiM (fun j s => walk_stmt E (pos_kind tk (List.length b) j) (for_sub_scope c) s) 0 b cnt = Ok (b', cnt') /\ gblock b'.
  Proof. intros H R O ->. apply (H b k BlockTail (for_sub_scope c) cnt 0 eq_refl R eq_refl (Hsub k c O)). discriminate. Qed.

  Lemma w_tail cl e0 e k tk c cnt : full cl e0 -> walks (full true) e0 -> bare e = e0 -> ready fine k true e -> okc k c -> (tk = FnBlockTail -> is_post e0 = true) ->
    exists e' cnt', handle_tail_with E (fun ov c' => walk_expr E ov c' e) e c tk cnt = Ok (e', cnt') /\ made (full true) e' /\ (tk <> FnBlockTail -> blocky e0 = true -> blocky (actual e') = true) /\
      (is_post e0 = true -> post true (actual e') /\ (starts_block (etoks (actual e')) = true -> starts_block (etoks e0) = true)).
  Proof.
    intros F H B R O Fn. pose proof (full_attrs _ _ F) as A. rewrite <- B in A. destruct (head_ready _ _ _ R A) as (a & Ga & Fa & Na).
    unfold handle_tail_with. rewrite Ga. destruct (Hattrs k a c cnt Fa O) as (sk & c' & Hh & O'). rewrite (bind_ok _ _ _ _ _ Hh). cbn beta iota zeta. rewrite Na.
    destruct (H (set_attrs [] e) (push a k) c' cnt) as (e1 & k1 & W & (P & G) & (F1 & F2 & F3 & F4 & F5)); [rewrite (bare_set e a Ga Na); exact B|eapply ready_set; eassumption|exact O'|].
    assert (St : is_post e0 = true -> post true (actual e1) /\ (starts_block (etoks (actual e1)) = true -> starts_block (etoks e0) = true)) by (intro Q; split; [apply post_full; [exact P|congruence]|exact F4]).
    rewrite over_now, (bind_ok _ _ _ _ _ W). cbn beta.
    destruct (is_target tk) eqn:Kt; cbn [negb]; [|do 2 eexists; split; [reflexivity|]; split; [split; assumption|split; [intros _ Bl; auto|exact St]]].
    destruct (target_call_check c' e1) as [t nt] eqn:TC. destruct (t || return_type_is_result c' && is_fn_tail tk && negb nt) eqn:D.
    - assert (Po : is_post e0 = true /\ (tk <> FnBlockTail -> blocky e0 = false)).
      { unfold target_call_check in TC. destruct (call_path e1) eqn:CP.
        - assert (No : is_post e0 = false \/ blocky e0 = true -> False) by (intro Q; discriminate (F5 Q)). destruct (is_post e0); [|exfalso; apply No; auto]. split; [reflexivity|]. intros _. destruct (blocky e0); [exfalso; apply No; auto|reflexivity].
        - injection TC as <- <-. cbn [orb negb] in D. destruct tk; [split; [auto|congruence]| |]; rewrite !andb_false_r in D; discriminate. }
      destruct Po as [Po1 Po2]. assert (Pp : made (post true) e1) by (split; [apply post_full; [exact P|congruence]|exact G]).
      destruct (hook_applied (negb sk) e1 (etoks (set_attrs [] e)) TailExpr (ts_span (etoks e1)) _ c' k1 O' Pp) as (e2 & exc & k2 & W2 & (P2 & G2) & _ & _ & Fd).
      rewrite (bind_ok _ _ _ _ _ W2). do 2 eexists. split; [reflexivity|]. split; [split; [apply f_oper, o_un, u_post, P2|exact G2]|]. split; [intros N Bl; rewrite Po2 in Bl by exact N; discriminate|].
      intros _. split; [exact P2|]. auto.
    - do 2 eexists. split; [reflexivity|]. split; [split; assumption|split; [intros _ Bl; auto|exact St]].
  Qed.
  Lemma w_stmt cl e0 e k tk c cnt : full cl e0 -> walks (full true) e0 -> bare e = e0 -> ready fine k (is_target tk) e -> okc k c -> (tk = FnBlockTail -> is_post e0 = true) ->
    exists e' cnt', walk_stmt E tk c (SExpr e None) cnt = Ok (SExpr e' None, cnt') /\ made (full true) e' /\ (tk <> FnBlockTail -> blocky e0 = true -> blocky (actual e') = true).
  Proof.
    intros F H B R O Fn. cbn [walk_stmt]. destruct (is_target tk) eqn:Kt.
    - destruct (w_tail cl e0 e k tk c cnt F H B R O Fn) as (e1 & k1 & W & X1 & X2 & _). rewrite (bind_ok _ _ _ _ _ W). do 2 eexists. split; [reflexivity|]. split; assumption.
    - destruct (H e k c cnt B R O) as (e1 & k1 & W & G & (F1 & _)). rewrite (bind_ok _ _ _ _ _ W). do 2 eexists. split; [reflexivity|]. split; [exact G|]. intros _ Bl. auto.
  Qed.
  Lemma w_arm cl pt i gd q g e0 cm m k c cnt : guard_walks i gd -> full cl e0 -> walks (full true) e0 -> arm_bare m = an_arm pt i gd q g e0 cm -> arm_ready fine k m -> okc k c ->
    exists gd' e' cnt', walk_arm E c m cnt = Ok (an_arm pt i gd' q g e' cm, cnt') /\ guard true i (option_map actual gd') /\ mgood (an_arm pt i gd' q g e' cm) /\ full true (actual e') /\
      (blocky e0 = true -> blocky (actual e') = true).
  Proof.
    intros Hg F H B R O. destruct m as [a1 pt1 ik1 gu1 ar1 e co1]. injection B; clear B; intros. destruct R as (Ra & Rg & R).
    match goal with Q : option_map bare gu1 = gd |- _ => destruct (Hg gu1 k c cnt Q Rg O) as (gd' & k0 & W0 & G0 & T0 & S0) end.
    assert (X : exists e' cnt', (match e with EBlock _ _ _ _ => walk_expr E None c e | _ => handle_tail_with E (fun ov c' => walk_expr E ov c' e) e c BlockTail end) k0 = Ok (e', cnt') /\ made (full true) e' /\ (blocky e0 = true -> blocky (actual e') = true)).
    { assert (T : exists e' cnt', handle_tail_with E (fun ov c' => walk_expr E ov c' e) e c BlockTail k0 = Ok (e', cnt') /\ made (full true) e' /\ (blocky e0 = true -> blocky (actual e') = true)).
      { destruct (w_tail cl e0 e k BlockTail c k0 F H) as (e1 & k1 & W & M & B & _); try assumption; [discriminate|]. exists e1, k1. split; [exact W|]. split; [exact M|]. apply B. discriminate. }
      destruct e; try exact T. match goal with B : bare _ = e0 |- _ => destruct (H _ k c k0 B R O) as (e1 & k1 & W & G & (F1 & _)) end. exists e1, k1. split; [exact W|]. split; [exact G|]. intro Bl. auto. }
    destruct X as (e1 & k1 & W & (P & T & S) & B). exists gd', e1, k1. split; [|split; [exact G0|split; [|split; assumption]]].
    - cbn [walk_arm]. rewrite (bind_ok _ _ _ _ _ W0). rewrite (bind_ok _ _ _ _ _ W). unfold an_arm, ret. replace a1 with (@nil attr) by congruence. congruence.
    - split; [unfold an_arm; cbn [arm_actual armtoks]; rewrite T, T0; reflexivity|]. cbn [an_arm arm_subs]. apply Forall_app. split; assumption.
  Qed.

  Lemma starts_pre a b x y : a <> [] -> b <> [] -> (starts_block a = true -> starts_block b = true) -> starts_block (a ++ x) = true -> starts_block (b ++ y) = true.
  Proof. intros A B H. rewrite !starts_app by assumption. exact H. Qed.
  Lemma post_ne cl e : post cl e -> etoks e <> [].
  Proof. intro P. eapply un_nonempty, u_post, P. Qed.
  Lemma post_not_ref cl e : post cl e -> top e = (tight, false).
  Proof. intros []; reflexivity. Qed.
  Ltac look := solve [cbn [actual etoks]; exact (fun H => H) | discriminate | cbn [actual etoks]; toks; apply starts_pre; solve [assumption | eapply post_ne; eassumption | eapply un_nonempty; eassumption | eapply oper_nonempty; eassumption]].
  Ltac tops := repeat match goal with T : top ?x = top ?y |- _ => let a := fresh "Lx" in let b := fresh "Rx" in pose proof (f_equal fst T) as a; pose proof (f_equal snd T) as b; cbn [top fst snd] in a, b; clear T end.
  Ltac faces := split; [solve [reflexivity | discriminate | auto]|]; split; [reflexivity|]; split; [first [reflexivity | unfold top; cbn [actual lvl lead option_map]; congruence]|]; split; [look|]; solve [intros [?|?]; discriminate | reflexivity].
  Ltac text := cbn [actual stmt_actual etoks option_map opt_toks]; repeat match goal with T : ?a = ?b |- context [?a] => rewrite T end; reflexivity.
  Ltac parts := cbn [subs opt_list]; repeat (apply Forall_app; split); auto; repeat constructor.
  Ltac inv B R := match type of B with bare ?e = _ =>
      destruct e; try discriminate B; try (destruct R; fail); cbn [bare] in B;
      repeat match goal with o : option expr |- _ => destruct o; cbn [option_map] in B; try discriminate B end; injection B; clear B; intros; subst; cbn [ready] in R;
      repeat match goal with R : _ /\ _ |- _ => destruct R end end.
  Ltac visit := cbn [walk_expr attrs_now];
    match goal with F : fine ?k ?a, O : okc ?k ?c |- context [bind (handle E ?a ?c) _ ?n] =>
      let sk := fresh "sk" in let c' := fresh "c'" in let Hh := fresh "Hh" in let O' := fresh "O'" in
      destruct (Hattrs k a c n F O) as (sk & c' & Hh & O'); rewrite (bind_ok _ _ _ _ _ Hh); clear Hh end; cbn beta iota zeta; match goal with Hn : foreign ?a = [] |- context [foreign ?a] => rewrite ?Hn end.
  Tactic Notation "go" hyp(H) "as" ident(e) ident(k) ident(P) ident(T) ident(S) ident(F) :=
    match type of H with walks _ (bare ?e1) => match goal with R : ready fine ?k1 false e1, O : okc ?k1 ?c |- context [bind (walk_expr E None ?c e1) _ ?n] =>
      let W := fresh "W" in destruct (H e1 k1 c n eq_refl R O) as (e & k & W & (P & T & S) & F); rewrite (bind_ok _ _ _ _ _ W); clear W end end.
  Tactic Notation "goes" hyp(H) "as" ident(es') ident(k) ident(P) ident(T) ident(S) :=
    match type of H with args_walk (map bare ?es) _ => match goal with O : okc ?k1 ?c |- context [bind (mapM (walk_expr E None ?c) es) _ ?n] =>
      let W := fresh "W" in let G := fresh "G" in destruct (H es k1 c n eq_refl ltac:(assumption) O) as (es' & k & W & (P & G)); rewrite (bind_ok _ _ _ _ _ W); clear W; destruct (good_args _ G) as [T S] end end.
  Tactic Notation "in_block" hyp(H) "as" ident(b') ident(k) ident(P) ident(T) ident(S) :=
    match type of H with block_walks (map stmt_bare ?b) => match goal with O : okc ?k1 ?c |- context [bind (mapiM _ 0 b) _ ?n] =>
      let W := fresh "W" in let G := fresh "G" in destruct (w_block b k1 BlockTail c n H ltac:(assumption) O eq_refl) as (b' & k & W & (P & G)); rewrite (bind_ok _ _ _ _ _ W); clear W; destruct (good_block _ G) as [T S] end end.
  Tactic Notation "fin" constr(rule) := do 2 eexists; split; [reflexivity|]; split; [split; [cbn [actual option_map]; apply rule; solve [eassumption | auto | congruence]|split; [text|parts]]|faces].
  Lemma walks_up (P Q : expr -> Prop) e : (forall e, P e -> Q e) -> walks P e -> walks Q e.
  Proof. intros PQ H x k c cnt B R O. destruct (H x k c cnt B R O) as (e1 & k1 & W & (P1 & G) & F). exists e1, k1. split; [exact W|]. split; [split; [apply PQ, P1|exact G]|exact F]. Qed.

  Definition ends {A} (b : list A) : bool := match b with [] => true | _ => false end.
  Lemma ready_cons k x b : block_ready fine k (x :: b) -> stmt_ready fine k (ends b) x /\ block_ready fine k b.
  Proof. destruct b; intro H; [split; [exact H|exact I]|exact H]. Qed.
  Lemma pos_ends {A} tk i (b : list A) : is_target tk = true -> is_target (pos_kind tk (i + Datatypes.S (List.length b)) i) = ends b.
  Proof.
    intro Kt. unfold pos_kind. destruct b as [|x b]; cbn [List.length ends].
    - replace (Nat.eqb i _) with true; [exact Kt|]. symmetry. apply Nat.eqb_eq. lia.
    - replace (Nat.eqb i _) with false; [reflexivity|]. symmetry. apply Nat.eqb_neq. lia.
  Qed.
  Theorem all_walk :
    (forall e, post false e -> walks (post true) e) /\ (forall e, un false e -> walks (un true) e) /\ (forall e, oper false e -> walks (oper true) e) /\ (forall e, cond false e -> walks (cond true) e) /\
    (forall e, full false e -> walks (full true) e) /\ (forall es cs, args false es cs -> args_walk es cs) /\ (forall ms, arms false ms -> arms_walk ms) /\ (forall i gd, guard false i gd -> guard_walks i gd) /\ (forall b, block false b -> block_walks b).
  Proof.
    apply (tree_mut false (walks (post true)) (walks (un true)) (walks (oper true)) (walks (cond true)) (walks (full true)) args_walk arms_walk guard_walks block_walks).
    - intros x sp W e k c cnt B R O. inv B R. do 2 eexists. split; [cbn [walk_expr attrs_now]; reflexivity|]. replace a with (@nil attr) by congruence. split; [split; [constructor; exact W|split; [reflexivity|repeat constructor]]|faces].
    - intros x sp h hs W Hh e k c cnt B R O. inv B R. do 2 eexists. split; [cbn [walk_expr attrs_now]; reflexivity|]. replace a with (@nil attr) by congruence. split; [split; [apply p_far; assumption|split; [reflexivity|repeat constructor]]|faces].
    - intros l sp e k c cnt B R O. inv B R. do 2 eexists. split; [cbn [walk_expr attrs_now]; reflexivity|]. replace a with (@nil attr) by congruence. split; [split; [constructor|split; [reflexivity|repeat constructor]]|faces].
    - intros sp e k c cnt B R O. inv B R. visit. match goal with H : map bare ?l = [] |- _ => destruct l; [|discriminate] end. do 2 eexists. split; [reflexivity|]. split; [split; [constructor|split; [reflexivity|repeat constructor]]|faces].
    - intros sp e F H x k c cnt B R O. inv B R. visit. go H as e1 k1 P T S Fc. fin p_paren.
    - intros sp es cs A H C x k c cnt B R O. inv B R. visit. goes H as es' k1 P T S. fin p_tuple.
    - intros sp es cs A H x k c cnt B R O. inv B R. visit. goes H as es' k1 P T S. fin p_array.
    - intros x sp0 sp es cs Wx A H e k c cnt B R O. inv B R. visit.
      assert (X : bare e = name x sp0) by assumption. assert (Rf : ready fine (push a k) false e) by assumption. clear H0. inv X Rf. replace a0 with (@nil attr) by congruence. cbn [walk_expr attrs_now]. rewrite (bind_ok _ _ _ _ _ eq_refl).
      goes H as es' k1 P T S. do 2 eexists. split; [reflexivity|]. split; [split; [cbn [actual]; apply p_call; assumption|split; [text|parts]]|faces].
    - intros x sp0 h hs sp es cs Wx Hh A H e k c cnt B R O. inv B R. visit.
      assert (X : bare e = far x sp0 (h :: hs)) by assumption. assert (Rf : ready fine (push a k) false e) by assumption. clear H0. inv X Rf. replace a0 with (@nil attr) by congruence. cbn [walk_expr attrs_now]. rewrite (bind_ok _ _ _ _ _ eq_refl).
      goes H as es' k1 P T S. do 2 eexists. split; [reflexivity|]. split; [split; [cbn [actual]; apply p_call_far; assumption|split; [text|parts]]|faces].
    - intros e a m b sp es cs Pe He Wm A Ha x k c cnt B R O. inv B R. visit. go He as e1 k1 P T S Fc. goes Ha as es' k2 P2 T2 S2. destruct Fc as (_ & _ & _ & Fc & _). fin p_method.
    - intros e a m b c0 d0 l0 g z sp es cs Pe He Wm G A Ha x k c cnt B R O. inv B R. visit. go He as e1 k1 P T S Fc. goes Ha as es' k2 P2 T2 S2. destruct Fc as (_ & _ & _ & Fc & _). fin p_turbo.
    - intros e a m b Pe H Wm x k c cnt B R O. inv B R. visit. go H as e1 k1 P T S Fc. destruct Fc as (_ & _ & _ & Fc & _). fin p_field.
    - intros e a n b Pe H Wm x k c cnt B R O. inv B R. visit. go H as e1 k1 P T S Fc. destruct Fc as (_ & _ & _ & Fc & _). fin p_nth.
    - intros e a b Pe H x k c cnt B R O. inv B R. visit. go H as e1 k1 P T S Fc. destruct Fc as (_ & _ & _ & Fc & _). fin p_await.
    - intros e sp Pe H x k c cnt B R O. inv B R. visit. go H as e1 k1 P T S Fc.
      match goal with O' : okc ?k0 ?c |- context [hook_expr E ?b e1 ?s ?k ?q ?c] => destruct (hook_applied b e1 s k q k0 c k1 O' (conj P (conj T S))) as (e2 & exc & k2 & W2 & (P2 & T2 & S2) & M2 & N2 & Fd) end.
      rewrite (bind_ok _ _ _ _ _ W2). cbn beta iota. destruct Fc as (_ & _ & _ & Fc & _). assert (Fe : starts_block (etoks (actual e2)) = true -> starts_block (etoks (bare x)) = true) by auto. destruct exc; [|fin p_try].
      do 2 eexists. split; [reflexivity|]. pose proof (M2 eq_refl [] sp) as M3. split; [exact M3|]. split; [discriminate|]. split; [rewrite (post_is _ _ (proj1 M3)); reflexivity|]. split; [exact (post_not_ref _ _ (proj1 M3))|]. split; [|intros [?|?]; discriminate].
      rewrite N2. intro Q. toks. rewrite starts_app by (eapply post_ne; eassumption). auto.
    - intros e sp i Pe He Sb F Hi x k c cnt B R O. inv B R. visit. go He as e1 k1 P1 T1 S1 Fc. go Hi as e2 k2 P2 T2 S2 Fi. destruct Fc as (_ & _ & _ & Fc & _).
      assert (Sb' : starts_block (etoks (actual e1)) = false) by (apply not_true_is_false; intro Q; specialize (Fc Q); congruence). fin p_index.
    - intros sp b Bb H x k c cnt B R O. inv B R. visit. in_block H as b' k1 P T S. fin p_block.
    - intros a sp b Bb H x k c cnt B R O. inv B R. visit. in_block H as b' k1 P T S. fin p_unsafe.
    - intros a cd sp b Pc Hc Bb H x k c cnt B R O. inv B R. visit. go Hc as e1 k1 P1 T1 S1 Fc. in_block H as b' k2 P T S. cbn [optM]. rewrite (bind_ok _ _ _ _ _ eq_refl). fin p_if.
    - intros a cd sp b d el Pc Hc Bb H Pe He Bl x k c cnt B R O. inv B R. visit. go Hc as e1 k1 P1 T1 S1 Fc. in_block H as b' k2 P T S.
      match goal with R : ready fine ?k0 false ?el, O : okc ?k0 ?c |- context [optM (walk_expr E None (for_sub_scope ?c)) (Some ?el)] => destruct (He el k0 _ k2 eq_refl R (Hsub _ _ O)) as (e3 & k3 & W3 & (P3 & T3 & S3) & (Bl3 & _)) end.
      cbn [optM]. unfold bind at 1. unfold bind at 1. rewrite W3. cbn [ret]. fin p_else.
    - intros a e sp ms Pe He A Ha x k c cnt B R O. inv B R. visit. go He as e1 k1 P1 T1 S1 Fc.
      match type of Ha with arms_walk (map arm_bare ?ms) => match goal with O : okc ?k0 ?c |- context [bind (mapM _ ms) _ ?n] => destruct (Ha ms k0 _ n eq_refl ltac:(assumption) (Hsub _ _ O)) as (ms' & k2 & W2 & (P & S)); rewrite (bind_ok _ _ _ _ _ W2) end end.
      destruct (good_arms _ S) as [T S']. fin p_match.
    - intros a sp b Bb H x k c cnt B R O. inv B R. visit. in_block H as b' k1 P T S. fin p_loop.
    - intros a cd sp b Pc Hc Bb H x k c cnt B R O. inv B R. visit. go Hc as e1 k1 P1 T1 S1 Fc. in_block H as b' k2 P T S. fin p_while.
    - intros a pt i e sp b Pp Pe He Bb H x k c cnt B R O. inv B R. visit. go He as e1 k1 P1 T1 S1 Fc. in_block H as b' k2 P T S. fin p_for.
    - intros e P. apply walks_up, u_post.
    - intros a e Pe H x k c cnt B R O. inv B R. visit. go H as e1 k1 P T S Fc. fin u_ref.
    - intros a b e Pe H x k c cnt B R O. inv B R. visit. go H as e1 k1 P T S Fc. fin u_mut.
    - intros y a e C Pe H x k c cnt B R O. inv B R. visit. go H as e1 k1 P T S Fc. fin u_op.
    - intros e P. apply walks_up, o_un.
    - intros l o s r Ul Hl SB Sp Op Lo Ur Hr Lr A x k c cnt B R O. inv B R. visit. go Hl as l1 k1 P1 T1 S1 F1. go Hr as r1 k2 P2 T2 S2 F2. destruct F1 as (_ & _ & Q1 & F1 & _). destruct F2 as (_ & _ & Q2 & _ & _). tops.
      do 2 eexists. split; [reflexivity|]. split; [split; [cbn [actual]; apply (o_binary true _ o s _); solve [assumption | apply not_true_is_false; intro Q; specialize (F1 Q); congruence | congruence | lia | intro Q; specialize (A Q); congruence]|split; [text|parts]]|faces].
    - intros l o s r Ul Hl SB Sp Op Lo Ur Hr Lr x k c cnt B R O. inv B R. visit.
      match goal with R1 : ready fine ?k0 false ?y, R2 : ready fine ?k0 false ?z, O : okc ?k0 ?c |- context [bind (optM (walk_expr E None ?c) (Some ?y)) _ ?n] =>
        destruct (Hl y k0 c n eq_refl R1 O) as (l1 & k1 & W1 & (P1 & T1 & S1) & F1); destruct (Hr z k0 c k1 eq_refl R2 O) as (r1 & k2 & W2 & (P2 & T2 & S2) & F2) end.
      cbn [optM]. unfold bind at 1. unfold bind at 1. rewrite W1. cbn [ret]. unfold bind at 1. unfold bind at 1. rewrite W2. cbn [ret]. destruct F1 as (_ & _ & Q1 & F1 & _). destruct F2 as (_ & _ & Q2 & _ & _). tops.
      do 2 eexists. split; [reflexivity|]. split; [split; [cbn [actual option_map]; apply (o_range true _ o s _); solve [assumption | apply not_true_is_false; intro Q; specialize (F1 Q); congruence | congruence | lia]|split; [text|parts]]|faces].
    - intros l a r Ul Hl SB Ur Hr Lr x k c cnt B R O. inv B R. visit. go Hr as r1 k2 P2 T2 S2 F2. match goal with Bl : bare ?l = ?l |- _ => rewrite Bl in *; rename l into l0 end.
      destruct (good_written l0 (proj1 (proj2 fragment_written) l0 Ul)) as [Al [Tl Sl]]. pose proof (proj1 (proj2 more) l0 Ul) as Ul'. destruct F2 as (_ & _ & Q2 & _ & _). tops.
      do 2 eexists. split; [reflexivity|]. split; [split; [cbn [actual]; rewrite Al; apply o_assign; solve [assumption | lia]|split; [text|parts]]|].
      split; [discriminate|]. split; [reflexivity|]. split; [unfold top; cbn [actual lvl lead]; rewrite Al; reflexivity|]. split; [|reflexivity]. cbn [actual]. rewrite Al. toks. apply starts_pre; [eapply un_nonempty; exact Ul|eapply un_nonempty; exact Ul|auto].
    - intros e P. apply walks_up, c_oper.
    - intros a pt q e Pp Pe H x k c cnt B R O. inv B R. visit. go H as e1 k1 P T S Fc. fin c_let.
    - intros e P. apply walks_up, f_oper.
    - intros sp e Pe H x k c cnt B R O. inv B R. visit. go H as e1 k1 P T S Fc.
      assert (Y : forall x, made (post true) x -> made (full true) (EReturn [] sp (Some x))).
      { intros y (Py & Ty & Sy). split; [apply f_return; exact Py|]. split; [text|parts]. }
      assert (G : made (post true) e1) by (split; [exact P|split; assumption]).
      match goal with |- context [target_call_check ?c e1] => destruct (target_call_check c e1) as [t nt]; destruct (t || return_type_is_result c && negb nt) end.
      + match goal with O' : okc ?k0 ?c |- context [hook_expr E ?b e1 ?s ?k ?q ?c] => destruct (hook_applied b e1 s k q k0 c k1 O' G) as (e2 & exc & k2 & W2 & G2 & _) end.
        rewrite (bind_ok _ _ _ _ _ W2). do 2 eexists. split; [reflexivity|]. split; [apply Y, G2|faces].
      + do 2 eexists. split; [reflexivity|]. split; [apply Y, G|faces].
    - intros sp x k c cnt B R O. inv B R. visit. fin f_return_none.
    - intros sp x k c cnt B R O. inv B R. visit. cbn [optM]. rewrite (bind_ok _ _ _ _ _ eq_refl). fin f_break.
    - intros sp e Pe H x k c cnt B R O. inv B R. visit.
      match goal with R : ready fine ?k0 false ?y, O : okc ?k0 ?c |- context [optM (walk_expr E None ?c) (Some ?y)] => destruct (H y k0 c cnt eq_refl R O) as (e1 & k1 & W & (P & T & S) & _) end.
      cbn [optM]. unfold bind at 1. unfold bind at 1. rewrite W. cbn [ret]. fin f_break_some.
    - intros sp x k c cnt B R O. inv B R. cbn [walk_expr attrs_now]. replace a with (@nil attr) by congruence. fin f_continue.
    - discriminate.
    - discriminate.
    - intros a ps b e Pp Pe H Sb x k c cnt B R O. inv B R. visit. match goal with R : ready fine _ true ?y |- _ => rename y into body; rename R into Rb end.
      assert (H' : walks (full true) (bare body)) by (eapply walks_up; [|exact H]; intros y Py; apply f_oper, o_un, u_post, Py).
      match goal with O' : okc ?k1 ?c1, Rb : ready fine ?k1 true body |- context [update_fn_info ?c1 ?i] => set (c2 := update_fn_info c1 i); assert (O2 : okc k1 c2) by (apply Hfn, O');
        destruct (w_tail false (bare body) body k1 FnBlockTail c2 cnt (f_oper _ _ (o_un _ _ (u_post _ _ Pe))) H' eq_refl Rb O2) as (e1 & q1 & W & (_ & T & S) & _ & Q) end; [intros _; eapply post_is, Pe|].
      destruct (Q (post_is _ _ Pe)) as [P1 P2].
      assert (W' : match body with
                   | EBlock ba lbl bsp b => '(ba', _, c3) <- handle E ba c2; b' <- mapiM (fun i s => walk_stmt E (pos_kind FnBlockTail (List.length b) i) (for_sub_scope c3) s) 0 b; ret (EBlock ba' lbl bsp b')
                   | _ => handle_tail_with E (fun ov' c' => walk_expr E ov' c' body) body c2 FnBlockTail end cnt = Ok (e1, q1)).
      { destruct body; try exact W. cbn [bare] in Sb, Pe. inversion Pe; subst; match goal with H : _ = foreign _ |- _ => rewrite <- H in Sb end; discriminate Sb. }
      rewrite (bind_ok _ _ _ _ _ W'). assert (Sb' : starts_block (etoks (actual e1)) = false) by (apply not_true_is_false; intro Y; specialize (P2 Y); congruence). fin f_lambda.
    - intros es k c cnt B R O. apply map_eq_nil in B. subst. do 2 eexists. split; [reflexivity|]. split; constructor.
    - intros e F H es k c cnt B R O. destruct es as [|x [|y es]]; try discriminate. injection B as B. destruct R as [R _]. cbn [mapM]. destruct (H x k c cnt B R O) as (e1 & k1 & W & (P & G) & _). rewrite (bind_ok _ _ _ _ _ W). do 2 eexists. split; [reflexivity|]. split; [constructor; exact P|repeat constructor; apply G].
    - intros e sp es cs F H A IH [|x l] k c cnt B R O; [discriminate|]. injection B as B1 B2. destruct R as [R1 R2]. cbn [mapM]. destruct (H x k c cnt B1 R1 O) as (e1 & k1 & W & (P & G) & _). rewrite (bind_ok _ _ _ _ _ W). destruct (IH l k c k1 B2 R2 O) as (es' & k2 & W2 & (P2 & G2)).
      fold (mapM (walk_expr E None c)). rewrite (bind_ok _ _ _ _ _ W2). do 2 eexists. split; [reflexivity|]. split; [constructor; assumption|constructor; assumption].
    - intros ms k c cnt B R O. apply map_eq_nil in B. subst. do 2 eexists. split; [reflexivity|]. split; constructor.
    - intros pt i gd q g e Pp Gd Hg F H [|m [|m2 ms]] k c cnt B R O; try discriminate. injection B as B. destruct R as [R _]. cbn [mapM]. destruct (w_arm _ pt i gd q g e [] m k c cnt Hg F H B R O) as (gd1 & e1 & k1 & W & G1 & M & P & _). rewrite (bind_ok _ _ _ _ _ W). do 2 eexists. split; [reflexivity|].
      split; [apply m_last; assumption|]. constructor; [exact M|constructor].
    - intros pt i gd q g e cm ms Pp Gd Hg F H A IH [|m l] k c cnt B R O; [discriminate|]. injection B as B1 B2. destruct R as [R1 R2]. cbn [mapM]. destruct (w_arm _ pt i gd q g e [TPunct "," cm] m k c cnt Hg F H B1 R1 O) as (gd1 & e1 & k1 & W & G1 & M & P & _). rewrite (bind_ok _ _ _ _ _ W).
      destruct (IH l k c k1 B2 R2 O) as (ms' & k2 & W2 & (P2 & G2)). fold (mapM (walk_arm E c)). rewrite (bind_ok _ _ _ _ _ W2). do 2 eexists. split; [reflexivity|].
      split; [apply m_comma; assumption|]. constructor; assumption.
    - intros pt i gd q g e ms Pp Gd Hg Pe H Bl A IH [|m l] k c cnt B R O; [discriminate|]. injection B as B1 B2. destruct R as [R1 R2]. assert (H' : walks (full true) e) by (eapply walks_up; [|exact H]; intros x Px; apply f_oper, o_un, u_post, Px).
      cbn [mapM]. destruct (w_arm false pt i gd q g e [] m k c cnt Hg (f_oper _ _ (o_un _ _ (u_post _ _ Pe))) H' B1 R1 O) as (gd1 & e1 & k1 & W & G1 & M & P & Bq). rewrite (bind_ok _ _ _ _ _ W).
      destruct (IH l k c k1 B2 R2 O) as (ms' & k2 & W2 & (P2 & G2)). fold (mapM (walk_arm E c)). rewrite (bind_ok _ _ _ _ _ W2). do 2 eexists. split; [reflexivity|]. specialize (Bq Bl).
      split; [apply m_blocky; auto; eapply blocky_post; eassumption|]. constructor; assumption.
    - intros gd k c cnt B R O. destruct gd; [discriminate|]. do 2 eexists. split; [reflexivity|]. split; [constructor|]. split; [reflexivity|constructor].
    - intros a e Oe H gd k c cnt B R O. destruct gd as [x|]; [|discriminate]. injection B as B. destruct (H x k c cnt B R O) as (e1 & k1 & W & (P & T & S) & _). cbn [optM]. rewrite (bind_ok _ _ _ _ _ W). do 2 eexists. split; [reflexivity|].
      split; [constructor; exact P|]. split; [cbn; rewrite T; reflexivity|exact S].
    - intros b k tk c cnt i B R Kt O Tf. apply map_eq_nil in B. subst. do 2 eexists. split; [reflexivity|]. split; constructor.
    - intros e F H b k tk c cnt i B R Kt O Tf. destruct b as [|st [|s2 b]]; try discriminate. injection B as B. destruct st as [| | |x semi|]; try discriminate B. injection B as B ->. apply ready_cons in R. destruct R as [R _].
      cbn [mapiM]. destruct (w_stmt _ e x k (pos_kind tk (i + 1) i) c cnt F H B) as (e1 & k1 & W & (P1 & T & S) & _).
      { generalize (pos_ends tk i (@nil stmt) Kt). cbn [List.length]. intro Q. rewrite Q. exact R. }
      { exact O. }
      { unfold pos_kind. destruct (Nat.eqb _ _); [|discriminate]. intro Q. exact (Tf Q [] e eq_refl). }
      cbn [List.length]. rewrite (bind_ok _ _ _ _ _ W).
      do 2 eexists. split; [reflexivity|]. split; [constructor; exact P1|]. constructor; [|constructor]. split; [|exact S]. cbn [stmt_actual stoks]. rewrite T. reflexivity.
    - intros a pt c0 e d b0 Pp F H Bb IH b k tk c cnt i B R Kt O Tf. destruct b as [|st b]; [discriminate|]. injection B as B1 B2. destruct st as [|a1 pt1 e1 ek1 el1 semi1| | |]; try discriminate B1. injection B1; clear B1; intros. destruct el1; [discriminate|].
      apply ready_cons in R. destruct R as [(Ra & R & _) Rb]. subst ek1 pt1 semi1. cbn [mapiM]. cbn [walk_stmt].
      assert (X : exists e' k, (
         '(a', _, c') <- handle E a1 c; e' <- walk_expr E None c' e1; el' <- optM (walk_expr E None c') None;
         ret (SLocalInit a' (TIdent "let" a :: pt ++ [TPunct "=" c0]) e' [] el' [TPunct ";" d])) cnt = Ok (SLocalInit [] (TIdent "let" a :: pt ++ [TPunct "=" c0]) e' [] None [TPunct ";" d], k) /\ made (full true) e').
      { destruct (Hattrs k a1 c cnt Ra O) as (sk & c' & Hh & O'). rewrite (bind_ok _ _ _ _ _ Hh). cbn beta iota zeta. match goal with N : foreign a1 = [] |- _ => rewrite N end.
        match goal with Q : bare e1 = e |- _ => destruct (H e1 _ c' cnt Q R O') as (e2 & k1 & W & G & _) end. rewrite (bind_ok _ _ _ _ _ W). do 2 eexists. split; [reflexivity|exact G]. }
      destruct X as (e2 & k1 & W & (P & T & S)). rewrite (bind_ok _ _ _ _ _ W). destruct (IH b k tk c k1 (Datatypes.S i) B2 Rb Kt O (tail_next _ _ _ Tf)) as (b' & k2 & W2 & (P2 & G2)).
      cbn [List.length]. rewrite <- Nat.add_succ_comm. erewrite bind_ok; [|exact W2]. do 2 eexists. split; [reflexivity|].
      split; [apply b_let; assumption|]. constructor; [|exact G2]. split; [cbn [stmt_actual stoks option_map]; rewrite T; reflexivity|]. cbn [stmt_subs opt_list]. rewrite app_nil_r. exact S.
    - intros a pt d b0 Pp Bb IH b k tk c cnt i B R Kt O Tf. destruct b as [|st b]; [discriminate|]. injection B as B1 B2. destruct st as [a1 pt1 semi1| | | |]; try discriminate B1. injection B1; clear B1; intros. subst.
      apply ready_cons in R. destruct R as [R Rb]. cbn [stmt_ready] in R. replace a1 with (@nil attr) by congruence. cbn [mapiM walk_stmt]. rewrite (bind_ok _ _ _ _ _ eq_refl).
      destruct (IH b k tk c cnt (Datatypes.S i) eq_refl Rb Kt O (tail_next _ _ _ Tf)) as (b' & k2 & W2 & (P2 & G2)).
      cbn [List.length]. rewrite <- Nat.add_succ_comm. erewrite bind_ok; [|exact W2]. do 2 eexists. split; [reflexivity|].
      split; [apply b_local; assumption|]. constructor; [|exact G2]. split; [reflexivity|constructor].
    - intros a pt c0 e ke sp eb d b0 Pp Pe He Sb Eb Hb Bb IH b k tk c cnt i B R Kt O Tf. destruct b as [|st b]; [discriminate|]. injection B as B1 B2. destruct st as [|a1 pt1 e1 ek1 [el1|] semi1| | |]; try discriminate B1.
      cbn [stmt_bare option_map] in B1. injection B1; clear B1; intros. apply ready_cons in R. destruct R as [(Ra & R & Rl) Rb]. subst ek1 pt1 semi1. cbn [mapiM]. cbn [walk_stmt].
      match goal with Q : bare el1 = _ |- _ => destruct el1; try discriminate Q; try (destruct Rl; fail); cbn [bare] in Q; injection Q; clear Q; intros end. subst. cbn [ready] in Rl. destruct Rl as [Ra2 Rl].
      match goal with Q : foreign a1 = [] |- _ => rename Q into N1 end. match goal with Q : foreign ?y = [] |- _ => tryif constr_eq y a1 then fail else rename y into a2; rename Q into N2 end. match goal with Rl : last_all _ _ ?y |- _ => rename y into b2 end.
      assert (X : exists e' eb' k1, (
         '(a', _, c') <- handle E a1 c; e' <- walk_expr E None c' e1; el' <- optM (walk_expr E None c') (Some (EBlock a2 [] sp b2));
         ret (SLocalInit a' (TIdent "let" a :: pt ++ [TPunct "=" c0]) e' [TIdent "else" ke] el' [TPunct ";" d])) cnt =
         Ok (SLocalInit [] (TIdent "let" a :: pt ++ [TPunct "=" c0]) e' [TIdent "else" ke] (Some (EBlock [] [] sp eb')) [TPunct ";" d], k1) /\ made (post true) e' /\ starts_block (etoks (actual e')) = false /\ gblock eb').
      { destruct (Hattrs k a1 c cnt Ra O) as (sk & c' & Hh & O'). rewrite (bind_ok _ _ _ _ _ Hh). cbn beta iota zeta. rewrite N1.
        destruct (He e1 _ c' cnt eq_refl R O') as (e2 & k1 & W & G & (_ & _ & _ & Fc & _)). rewrite (bind_ok _ _ _ _ _ W).
        destruct (Hattrs _ a2 c' k1 Ra2 O') as (sk2 & c2 & Hh2 & O2).
        destruct (w_block b2 _ BlockTail c2 k1 Hb Rl O2 eq_refl) as (eb' & k2 & W2 & G2).
        exists e2, eb', k2. split; [|split; [exact G|split; [apply not_true_is_false; intro Q; specialize (Fc Q); congruence|exact G2]]].
        cbn [optM]. erewrite bind_ok; [reflexivity|]. erewrite bind_ok; [reflexivity|]. cbn [walk_expr attrs_now]. rewrite (bind_ok _ _ _ _ _ Hh2). cbn beta iota zeta. rewrite N2. erewrite bind_ok; [reflexivity|exact W2]. }
      destruct X as (e2 & eb' & k1 & W & (P & T & S) & Sb' & (P3 & G3)). rewrite (bind_ok _ _ _ _ _ W). destruct (IH b k tk c k1 (Datatypes.S i) eq_refl Rb Kt O (tail_next _ _ _ Tf)) as (b' & k2 & W2 & (P2 & G2)).
      cbn [List.length]. rewrite <- Nat.add_succ_comm. erewrite bind_ok; [|exact W2]. do 2 eexists. split; [reflexivity|]. destruct (good_block _ G3) as [T3 S3].
      split; [cbn [map stmt_actual option_map actual]; apply b_let_else; assumption|]. constructor; [|exact G2]. split; [cbn [stmt_actual stoks option_map actual opt_toks etoks]; rewrite T, T3; reflexivity|].
      cbn [stmt_subs opt_list subs]. repeat (apply Forall_app; split); auto; repeat constructor.
    - intros e sp b0 F H Bb IH b k tk c cnt i B R Kt O Tf. destruct b as [|st b]; [discriminate|]. injection B as B1 B2. destruct st as [| | |x semi|]; try discriminate B1. injection B1 as B1 ->. apply ready_cons in R. destruct R as [R Rb]. cbn [stmt_ready] in R.
      cbn [mapiM walk_stmt]. destruct (H x k c cnt B1 R O) as (e1 & k1 & W & (P & T & S) & _).
      erewrite bind_ok; [|erewrite bind_ok; [reflexivity|exact W]]. destruct (IH b k tk c k1 (Datatypes.S i) B2 Rb Kt O (tail_next _ _ _ Tf)) as (b' & k2 & W2 & (P2 & G2)).
      cbn [List.length]. rewrite <- Nat.add_succ_comm. erewrite bind_ok; [|exact W2]. do 2 eexists. split; [reflexivity|].
      split; [apply b_semi; assumption|]. constructor; [|exact G2]. split; [cbn [stmt_actual stoks]; rewrite T; reflexivity|exact S].
    - intros e b0 P H Bl Bb IH b k tk c cnt i B R Kt O Tf. assert (H' : walks (full true) e) by (eapply walks_up; [|exact H]; intros x Px; apply f_oper, o_un, u_post, Px).
      destruct b as [|st b]; [discriminate|]. injection B as B1 B2. destruct st as [| | |x semi|]; try discriminate B1. injection B1 as B1 ->. apply ready_cons in R. destruct R as [R Rb]. cbn [stmt_ready] in R.
      cbn [mapiM]. destruct (w_stmt false e x k (pos_kind tk (i + List.length (SExpr x None :: b)) i) c cnt (f_oper _ _ (o_un _ _ (u_post _ _ P))) H' B1) as (e1 & k1 & W & (P1 & T & S) & Q).
      { cbn [List.length]. rewrite pos_ends by exact Kt. exact R. }
      { exact O. }
      { intros _. eapply post_is, P. }
      rewrite (bind_ok _ _ _ _ _ W).
      destruct (IH b k tk c k1 (Datatypes.S i) B2 Rb Kt O (tail_next _ _ _ Tf)) as (b' & k2 & W2 & (P2 & G2)).
      cbn [List.length]. rewrite <- Nat.add_succ_comm. erewrite bind_ok; [|exact W2]. do 2 eexists. split; [reflexivity|].
      assert (Sg : sgood (SExpr e1 None)) by (split; [cbn [stmt_actual stoks]; rewrite T; reflexivity|exact S]).
      split; [|constructor; assumption]. cbn [map stmt_actual]. destruct b as [|s b].
      + cbn in W2. injection W2 as <- <-. apply b_last, P1.
      + assert (Bl1 : blocky (actual e1) = true).
        { apply Q; [|exact Bl]. unfold pos_kind. cbn [List.length]. replace (Nat.eqb i _) with false; [discriminate|]. symmetry. apply Nat.eqb_neq. lia. }
        apply b_blocky; [eapply blocky_post; eassumption|exact Bl1|exact P2].
  Qed.
End Walk.
