(** On the small part of Rust, with its parser, the walker succeeds, and what it makes is in that part again. *)
From Coq Require Import String Ascii Bool Arith Lia List.
From Verif Require Import Base Tokens Method Paths Context Flavor Attrs Syntax Render Walker AttrSpec SiteSpec ProgSpec WalkSpec GrammarSpec MeaningSpec MeaningProofs SmallRust SmallRustProofs.
Import ListNotations.
Open Scope string_scope.
Open Scope list_scope.
Open Scope monad_scope.

Definition is_closure (e : expr) : Prop := match e with EClosure _ _ _ _ => True | _ => False end.
Lemma closure_read ts : a_closure ts -> exists f, etoks f = ts /\ full true f /\ is_closure f.
Proof.
  intros [a b l c _|a s b c l d W _].
  - exists (EClosure [] [TPunct "|" a; TPunct "|" b] RetNone (EVerbatim [TGroup Brace l c])). split; [reflexivity|]. split; [apply f_closure; reflexivity|exact I].
  - exists (EClosure [] [TPunct "|" a; TIdent s b; TPunct "|" c] RetNone (EVerbatim [TGroup Brace l d])). split; [reflexivity|]. split; [apply f_closure_1; auto|exact I].
Qed.
Lemma bind_ok {A B} (x : M A) (f : A -> M B) c a c' : x c = Ok (a, c') -> bind x f c = f a c'.
Proof. intro H. unfold bind. rewrite H. reflexivity. Qed.
Lemma handle_none E c cnt : handle E [] c cnt = Ok ([], is_skipped c, updated_by_inert_attr c inert0, cnt).
Proof. reflexivity. Qed.

(** * No hooks are written *)
Lemma hooks_app a b : hooks_of (a ++ b) = hooks_of a ++ hooks_of b.
Proof. apply flat_map_app. Qed.
Definition no_hooks (e : expr) : Prop := hooks_of (subs e) = [].
Lemma fragment_written :
  (forall e, post false e -> no_hooks e) /\ (forall e, un false e -> no_hooks e) /\ (forall e, oper false e -> no_hooks e) /\ (forall e, cond false e -> no_hooks e) /\ (forall e, full false e -> no_hooks e) /\
  (forall es cs, args false es cs -> hooks_of (flat_map subs es) = []) /\ (forall ms, arms false ms -> hooks_of (flat_map arm_subs ms) = []) /\ (forall i gd, guard false i gd -> hooks_of (opt_list subs gd) = []) /\ (forall b, block false b -> hooks_of (flat_map stmt_subs b) = []).
Proof.
  apply (tree_mut false no_hooks no_hooks no_hooks no_hooks no_hooks (fun es _ => hooks_of (flat_map subs es) = []) (fun ms => hooks_of (flat_map arm_subs ms) = []) (fun _ gd => hooks_of (opt_list subs gd) = []) (fun b => hooks_of (flat_map stmt_subs b) = []));
    intros; try discriminate; try assumption; try reflexivity; unfold no_hooks, an_arm in *; cbn [subs stmt_subs arm_subs flat_map opt_list]; rewrite ?app_nil_r, ?hooks_app;
    repeat match goal with H : hooks_of _ = [] |- _ => rewrite ?H; clear H end; reflexivity.
Qed.
Lemma block_written b : block false b -> hooks_of (flat_map stmt_subs b) = [].
Proof. apply fragment_written. Qed.
(** what has no closures may have them *)
Lemma more :
  (forall e, post false e -> post true e) /\ (forall e, un false e -> un true e) /\ (forall e, oper false e -> oper true e) /\ (forall e, cond false e -> cond true e) /\ (forall e, full false e -> full true e) /\
  (forall es cs, args false es cs -> args true es cs) /\ (forall ms, arms false ms -> arms true ms) /\ (forall i gd, guard false i gd -> guard true i gd) /\ (forall b, block false b -> block true b).
Proof.
  apply (tree_mut false (post true) (un true) (oper true) (cond true) (full true) (args true) (arms true) (guard true) (block true)); intros; try discriminate; try (econstructor; eassumption).
Qed.
Section Closed.
  Variables (E : env) (nm : string) (ok : ctx -> Prop).
  Hypothesis Hparse : ev_parse E = rust_parse.
  Hypothesis Hword : word nm.
  Hypothesis Hinert : forall c, ok c -> ok (updated_by_inert_attr c inert0).
  Hypothesis Hsub : forall c, ok c -> ok (for_sub_scope c).
  Hypothesis Hfn : forall c i, ok c -> ok (update_fn_info c i).
  Hypothesis Hrender : forall c k n src ets q, ok c -> is_hook_target c k = true -> exists call, render_toks (ev_str E) c k n src ets q = Ok (ets ++ call) /\ a_call nm call.
  Hypothesis Hexc : forall c, ok c -> m_exc (fval (cx_method c)) = false.

  Definition hook_ok (x : expr) : Prop :=
    match x with
    | EHook h o r => h_consumed h = None /\ exists sp1 sp2 sp3 f, r = EMethodCall [] (actual o) [TPunct "." sp1; TIdent nm sp2] sp3 [f] [] /\ is_closure f
    | _ => True
    end.
  Definition good (e : expr) : Prop := etoks (actual e) = etoks e /\ Forall hook_ok (subs e).
  Definition sgood (s : stmt) : Prop := stoks (stmt_actual s) = stoks s /\ Forall hook_ok (stmt_subs s).
  Definition mgood (m : arm) : Prop := armtoks (arm_actual m) = armtoks m /\ Forall hook_ok (arm_subs m).
  Definition made (P : expr -> Prop) (e : expr) : Prop := P (actual e) /\ good e.
  Definition gargs (es : list expr) (cs : list tt) : Prop := args true (map actual es) cs /\ Forall good es.
  Definition garms (ms : list arm) : Prop := arms true (map arm_actual ms) /\ Forall mgood ms.
  Definition gblock (b : list stmt) : Prop := block true (map stmt_actual b) /\ Forall sgood b.

  Lemma good_args es : Forall good es -> map etoks (map actual es) = map etoks es /\ Forall hook_ok (flat_map subs es).
  Proof.
    induction 1 as [|e es [T H] _ [IH1 IH2]]; [split; constructor|]. cbn. rewrite T, IH1. split; [reflexivity|]. apply Forall_app. auto.
  Qed.
  Lemma good_arms ms : Forall mgood ms -> flat_map armtoks (map arm_actual ms) = flat_map armtoks ms /\ Forall hook_ok (flat_map arm_subs ms).
  Proof.
    induction 1 as [|e es [T H] _ [IH1 IH2]]; [split; constructor|]. cbn [map flat_map]. rewrite T, IH1. split; [reflexivity|]. apply Forall_app. auto.
  Qed.
  Lemma good_block b : Forall sgood b -> flat_map stoks (map stmt_actual b) = flat_map stoks b /\ Forall hook_ok (flat_map stmt_subs b).
  Proof.
    induction 1 as [|e es [T H] _ [IH1 IH2]]; [split; constructor|]. cbn. rewrite T, IH1. split; [reflexivity|]. apply Forall_app. auto.
  Qed.
  Lemma good_written e : no_hooks e -> actual e = e /\ good e.
  Proof.
    intro H. pose proof (proj1 actual_written e H) as A. split; [exact A|]. split; [rewrite A; reflexivity|]. unfold no_hooks, hooks_of in H. clear A.
    induction (subs e) as [|x l IH]; [constructor|]. cbn [flat_map] in H. apply app_eq_nil in H. destruct H as [H1 H2]. constructor; [|apply IH, H2]. destruct x; try exact I. discriminate H1.
  Qed.

  Lemma hook_applied b e src k q c cnt : ok c -> made (post true) e ->
    exists e' cnt', hook_expr E b e src k q c cnt = Ok ((e', false), cnt') /\ made (post true) e'.
  Proof.
    intros O (P & T & H). unfold hook_expr. destruct b; cbn [negb]; [|exists e, cnt; repeat split; assumption].
    destruct (is_hook_target c k) eqn:Hk; cbn [negb]; [|do 2 eexists; repeat split; assumption].
    destruct (Hrender c k (get_count k (count_up k cnt)) src (etoks e) q O Hk) as (call & R & C). unfold render_expr. rewrite R. cbn [bindR].
    inversion_clear C as [a m ts g Hc]. destruct (closure_read _ Hc) as (f & <- & F & Fc).
    set (r := EMethodCall [] (actual e) [TPunct "." a; TIdent nm m] g [f] []).
    assert (Pr : post true r) by (apply p_method; [exact P|exact Hword|apply a_last, F]).
    assert (Tr : etoks r = etoks e ++ [TPunct "." a; TIdent nm m; TGroup Parenth (etoks f) g]).
    { unfold r. cbn [etoks map punctuated]. rewrite T, app_nil_r. reflexivity. }
    rewrite Hparse, <- Tr. rewrite (parse_printed true) by (apply f_oper, o_un, u_post; exact Pr). rewrite (Hexc c O). do 2 eexists. split; [reflexivity|].
    split; [exact Pr|]. split; [reflexivity|]. cbn [subs]. apply Forall_app. split; [exact H|]. constructor; [|constructor]. split; [reflexivity|]. do 4 eexists. split; [reflexivity|exact Fc].
  Qed.
  Lemma hook_starts b e src k q c cnt e' x cnt' : ok c -> made (post true) e -> hook_expr E b e src k q c cnt = Ok ((e', x), cnt') -> starts_block (etoks (actual e')) = starts_block (etoks (actual e)).
  Proof.
    intros O (P & T & H). unfold hook_expr. destruct b; cbn [negb]; [|intro Q; injection Q as <- <- <-; reflexivity].
    destruct (is_hook_target c k) eqn:Hk; cbn [negb]; [|intro Q; injection Q as <- <- <-; reflexivity].
    destruct (Hrender c k (get_count k (count_up k cnt)) src (etoks e) q O Hk) as (call & R & C). unfold render_expr. rewrite R. cbn [bindR].
    rewrite Hparse. destruct (rust_parse (etoks e ++ call)) as [r|] eqn:Q; [|discriminate]. apply parse_iff in Q. destruct Q as [_ Q]. rewrite (Hexc c O). intro X. injection X as <- <- <-.
    cbn [actual]. rewrite Q, T, starts_app; [reflexivity|]. rewrite <- T. eapply un_nonempty, u_post, P.
  Qed.
  Lemma no_attrs c e : get_attrs e = Some [] -> walk_expr E (Some []) c e = walk_expr E None c e.
  Proof. intros A. destruct e; cbn in A; try discriminate; injection A as ->; reflexivity. Qed.
  Lemma full_attrs cl e : full cl e -> get_attrs e = Some [].
  Proof. intros [e1 [e2 [e3 [] | | | ] | | | ] | | | | | | | | ]; reflexivity. Qed.

  (** what the walker leaves of how an expression looks *)
  Definition face (e e' : expr) : Prop :=
    blocky (actual e') = blocky e /\ is_post (actual e') = is_post e /\ top (actual e') = top e /\ starts_block (etoks (actual e')) = starts_block (etoks e) /\
    (is_post e = false \/ blocky e = true -> call_path e' = None).
  Definition walks (P : expr -> Prop) (e : expr) : Prop :=
    forall c cnt, ok c -> exists e' cnt', walk_expr E None c e cnt = Ok (e', cnt') /\ made P e' /\ face e e'.
  Definition args_walk (es : list expr) (cs : list tt) : Prop :=
    forall c cnt, ok c -> exists es' cnt', mapM (walk_expr E None c) es cnt = Ok (es', cnt') /\ gargs es' cs.
  Definition arms_walk (ms : list arm) : Prop :=
    forall c cnt, ok c -> exists ms' cnt', mapM (walk_arm E c) ms cnt = Ok (ms', cnt') /\ garms ms'.
  Definition guard_walks (i : list tt) (gd : option expr) : Prop :=
    forall c cnt, ok c -> exists gd' cnt', optM (walk_expr E None c) gd cnt = Ok (gd', cnt') /\ guard true i (option_map actual gd') /\ opt_toks etoks (option_map actual gd') = opt_toks etoks gd' /\
      Forall hook_ok (opt_list subs gd').
  (** a call can follow what the tail of a function makes *)
  Definition tail_fine (tk : tail_kind) (b : list stmt) : Prop := tk = FnBlockTail -> forall b0 e, b = b0 ++ [SExpr e None] -> is_post e = true.
  Definition block_walks (b : list stmt) : Prop :=
    forall tk c cnt i, ok c -> tail_fine tk b -> exists b' cnt', mapiM (fun j s => walk_stmt E (pos_kind tk (i + List.length b) j) c s) i b cnt = Ok (b', cnt') /\ gblock b'.

  Ltac on_handle := rewrite (bind_ok _ _ _ _ _ (handle_none _ _ _)); cbn beta iota zeta.
  Ltac visit := cbn [walk_expr attrs_now]; on_handle.
  Lemma w_block b tk c cnt : block_walks b -> ok c -> tk <> FnBlockTail -> exists b' cnt', mapiM (fun j s => walk_stmt E (pos_kind tk (List.length b) j) (for_sub_scope c) s) 0 b cnt = Ok (b', cnt') /\ gblock b'.
  Proof. intros H O N. apply (H tk (for_sub_scope c) cnt 0 (Hsub c O)). intro Q. contradiction. Qed.

  Lemma w_tail cl e tk c cnt : full cl e -> walks (full true) e -> ok c -> (tk = FnBlockTail -> is_post e = true) ->
    exists e' cnt', handle_tail_with E (fun ov c' => walk_expr E ov c' e) e c tk cnt = Ok (e', cnt') /\ made (full true) e' /\ (tk <> FnBlockTail -> blocky e = true -> blocky (actual e') = true) /\
      (is_post e = true -> post true (actual e') /\ starts_block (etoks (actual e')) = starts_block (etoks e)).
  Proof.
    intros F H O Fn. unfold handle_tail_with. rewrite (full_attrs _ _ F). on_handle.
    set (c' := updated_by_inert_attr c inert0). assert (O' : ok c') by (apply Hinert, O).
    destruct (H c' cnt O') as (e1 & k1 & W & (P & G) & (F1 & F2 & F3 & F4 & F5)).
    assert (St : is_post e = true -> post true (actual e1) /\ starts_block (etoks (actual e1)) = starts_block (etoks e)) by (intro Q; split; [apply post_full; [exact P|congruence]|exact F4]).
    rewrite (no_attrs c' e (full_attrs _ _ F)), (bind_ok _ _ _ _ _ W). cbn beta.
    destruct (is_target tk) eqn:K; cbn [negb]; [|do 2 eexists; split; [reflexivity|]; split; [split; assumption|split; [intros _ Bl; congruence|exact St]]].
    destruct (target_call_check c' e1) as [t nt] eqn:TC. destruct (t || return_type_is_result c' && is_fn_tail tk && negb nt) eqn:D.
    - assert (Po : is_post e = true /\ (tk <> FnBlockTail -> blocky e = false)).
      { unfold target_call_check in TC. destruct (call_path e1) eqn:CP.
        - assert (No : is_post e = false \/ blocky e = true -> False) by (intro Q; discriminate (F5 Q)). destruct (is_post e); [|exfalso; apply No; auto]. split; [reflexivity|]. intros _. destruct (blocky e); [exfalso; apply No; auto|reflexivity].
        - injection TC as <- <-. cbn [orb negb] in D. destruct tk; [split; [auto|congruence]| |]; rewrite !andb_false_r in D; discriminate. }
      destruct Po as [Po1 Po2]. assert (Pp : made (post true) e1) by (split; [apply post_full; [exact P|congruence]|exact G]).
      destruct (hook_applied (negb (is_skipped c)) e1 (etoks (set_attrs [] e)) TailExpr (ts_span (etoks e1)) c' k1 O' Pp) as (e2 & k2 & W2 & (P2 & G2)).
      pose proof (hook_starts _ _ _ _ _ _ _ _ _ _ O' Pp W2) as Q.
      rewrite (bind_ok _ _ _ _ _ W2). do 2 eexists. split; [reflexivity|]. split; [split; [apply f_oper, o_un, u_post, P2|exact G2]|]. split; [intros N Bl; rewrite Po2 in Bl by exact N; discriminate|].
      intros _. split; [exact P2|]. cbn [fst]. congruence.
    - do 2 eexists. split; [reflexivity|]. split; [split; assumption|split; [intros _ Bl; congruence|exact St]].
  Qed.
  Lemma w_stmt cl e tk c cnt : full cl e -> walks (full true) e -> ok c -> (tk = FnBlockTail -> is_post e = true) ->
    exists e' cnt', walk_stmt E tk c (SExpr e None) cnt = Ok (SExpr e' None, cnt') /\ made (full true) e' /\ (tk <> FnBlockTail -> blocky e = true -> blocky (actual e') = true).
  Proof.
    intros F H O Fn. cbn [walk_stmt]. destruct (is_target tk) eqn:K.
    - destruct (w_tail cl e tk c cnt F H O Fn) as (e1 & k1 & W & R1 & R2 & _). rewrite (bind_ok _ _ _ _ _ W). do 2 eexists. split; [reflexivity|]. split; assumption.
    - destruct (H c cnt O) as (e1 & k1 & W & G & (F1 & _)). rewrite (bind_ok _ _ _ _ _ W). do 2 eexists. split; [reflexivity|]. split; [exact G|]. intros _ Bl. congruence.
  Qed.
  Lemma w_arm cl e c cnt pt i gd q g cm : guard_walks i gd -> full cl e -> walks (full true) e -> ok c ->
    exists gd' e' cnt', walk_arm E c (an_arm pt i gd q g e cm) cnt = Ok (an_arm pt i gd' q g e' cm, cnt') /\ guard true i (option_map actual gd') /\ mgood (an_arm pt i gd' q g e' cm) /\ full true (actual e') /\
      (blocky e = true -> blocky (actual e') = true).
  Proof.
    intros Hg F H O. destruct (Hg c cnt O) as (gd' & k0 & W0 & G0 & T0 & S0).
    assert (X : exists e' cnt', (match e with EBlock _ _ _ _ => walk_expr E None c e | _ => handle_tail_with E (fun ov c' => walk_expr E ov c' e) e c BlockTail end) k0 = Ok (e', cnt') /\ made (full true) e' /\ (blocky e = true -> blocky (actual e') = true)).
    { assert (T : exists e' cnt', handle_tail_with E (fun ov c' => walk_expr E ov c' e) e c BlockTail k0 = Ok (e', cnt') /\ made (full true) e' /\ (blocky e = true -> blocky (actual e') = true)).
      { destruct (w_tail cl e BlockTail c k0 F H O) as (e1 & k1 & W & M & B & _); [discriminate|]. exists e1, k1. split; [exact W|]. split; [exact M|]. apply B. discriminate. }
      destruct e; try exact T. destruct (H c k0 O) as (e1 & k1 & W & G & (F1 & _)). exists e1, k1. split; [exact W|]. split; [exact G|]. intro Bl. congruence. }
    destruct X as (e1 & k1 & W & (P & T & S) & B). exists gd', e1, k1. split; [|split; [exact G0|split; [|split; assumption]]].
    - unfold an_arm. cbn [walk_arm]. rewrite (bind_ok _ _ _ _ _ W0). rewrite (bind_ok _ _ _ _ _ W). reflexivity.
    - split; [unfold an_arm; cbn [arm_actual armtoks]; rewrite T, T0; reflexivity|]. cbn [an_arm arm_subs]. apply Forall_app. split; assumption.
  Qed.

  Lemma starts_pre a b x y : a <> [] -> b <> [] -> starts_block a = starts_block b -> starts_block (a ++ x) = starts_block (b ++ y).
  Proof. intros A B H. rewrite !starts_app by assumption. exact H. Qed.
  Lemma post_ne cl e : post cl e -> etoks e <> [].
  Proof. intro P. eapply un_nonempty, u_post, P. Qed.
  Ltac look := solve [reflexivity | cbn [actual etoks]; toks; apply starts_pre; solve [assumption | eapply post_ne; eassumption | eapply un_nonempty; eassumption | eapply oper_nonempty; eassumption]].
  Ltac tops := repeat match goal with T : top ?x = top ?y |- _ => let a := fresh "Lx" in let b := fresh "Rx" in pose proof (f_equal fst T) as a; pose proof (f_equal snd T) as b; cbn [top fst snd] in a, b; clear T end.
  Ltac faces := split; [reflexivity|]; split; [reflexivity|]; split; [first [reflexivity | unfold top; cbn [actual lvl lead option_map]; congruence]|]; split; [look|]; solve [intros [?|?]; discriminate | reflexivity].
  Ltac text := cbn [actual stmt_actual etoks option_map opt_toks]; repeat match goal with T : ?a = ?b |- context [?a] => rewrite T end; reflexivity.
  Ltac parts := cbn [subs opt_list]; repeat (apply Forall_app; split); auto; repeat constructor.
  Tactic Notation "go" hyp(H) "as" ident(e) ident(k) ident(P) ident(T) ident(S) ident(F) :=
    match goal with |- context [bind _ _ ?n] => destruct (H _ n (Hinert _ ltac:(eassumption))) as (e & k & ?W & (P & T & S) & F) end;
    match goal with W : _ = Ok (e, k) |- _ => rewrite (bind_ok _ _ _ _ _ W); clear W end.
  Tactic Notation "fin" constr(rule) := do 2 eexists; split; [reflexivity|]; split; [split; [cbn [actual option_map]; apply rule; solve [eassumption | auto | congruence]|split; [text|parts]]|faces].

  Lemma walks_up (P Q : expr -> Prop) e : (forall e, P e -> Q e) -> walks P e -> walks Q e.
  Proof. intros PQ H c cnt O. destruct (H c cnt O) as (e1 & k1 & W & (P1 & G) & F). exists e1, k1. split; [exact W|]. split; [split; [apply PQ, P1|exact G]|exact F]. Qed.
  Lemma tail_next tk s b : tail_fine tk (s :: b) -> tail_fine tk b.
  Proof. intros H Q b0 e ->. exact (H Q (s :: b0) e eq_refl). Qed.
  Theorem all_walk :
    (forall e, post false e -> walks (post true) e) /\ (forall e, un false e -> walks (un true) e) /\ (forall e, oper false e -> walks (oper true) e) /\ (forall e, cond false e -> walks (cond true) e) /\
    (forall e, full false e -> walks (full true) e) /\ (forall es cs, args false es cs -> args_walk es cs) /\ (forall ms, arms false ms -> arms_walk ms) /\ (forall i gd, guard false i gd -> guard_walks i gd) /\ (forall b, block false b -> block_walks b).
  Proof.
    apply (tree_mut false (walks (post true)) (walks (un true)) (walks (oper true)) (walks (cond true)) (walks (full true)) args_walk arms_walk guard_walks block_walks).
    - intros x sp W c cnt O. do 2 eexists. split; [reflexivity|]. split; [split; [constructor; exact W|split; [reflexivity|repeat constructor]]|faces].
    - intros x sp h hs W Hh c cnt O. do 2 eexists. split; [reflexivity|]. split; [split; [apply p_far; assumption|split; [reflexivity|repeat constructor]]|faces].
    - intros l sp c cnt O. do 2 eexists. split; [reflexivity|]. split; [split; [constructor|split; [reflexivity|repeat constructor]]|faces].
    - intros sp c cnt O. do 2 eexists. split; [reflexivity|]. split; [split; [constructor|split; [reflexivity|repeat constructor]]|faces].
    - intros sp e F H c cnt O. visit. go H as e1 k1 P T S Fc. fin p_paren.
    - intros sp es cs A H C c cnt O. visit. destruct (H _ cnt (Hinert _ O)) as (es' & k1 & W & (P & S)). rewrite (bind_ok _ _ _ _ _ W). destruct (good_args _ S) as [T S']. fin p_tuple.
    - intros sp es cs A H c cnt O. visit. destruct (H _ cnt (Hinert _ O)) as (es' & k1 & W & (P & S)). rewrite (bind_ok _ _ _ _ _ W). destruct (good_args _ S) as [T S']. fin p_array.
    - intros x sp0 sp es cs Wx A H c cnt O. visit. unfold name at 1. cbn [walk_expr attrs_now]. rewrite (bind_ok _ _ _ _ _ eq_refl).
      destruct (H _ cnt (Hinert _ O)) as (es' & k1 & W & (P & S)). rewrite (bind_ok _ _ _ _ _ W). destruct (good_args _ S) as [T S'].
      do 2 eexists. split; [reflexivity|]. split; [split; [apply p_call; assumption|split; [text|parts]]|faces].
    - intros x sp0 h hs sp es cs Wx Hh A H c cnt O. visit. unfold far at 1. cbn [walk_expr attrs_now]. rewrite (bind_ok _ _ _ _ _ eq_refl).
      destruct (H _ cnt (Hinert _ O)) as (es' & k1 & W & (P & S)). rewrite (bind_ok _ _ _ _ _ W). destruct (good_args _ S) as [T S'].
      do 2 eexists. split; [reflexivity|]. split; [split; [apply p_call_far; assumption|split; [text|parts]]|faces].
    - intros e a m b sp es cs Pe He Wm A Ha c cnt O. visit. go He as e1 k1 P T S Fc.
      destruct (Ha _ k1 (Hinert _ O)) as (es' & k2 & W2 & (P2 & S2)). rewrite (bind_ok _ _ _ _ _ W2). destruct (good_args _ S2) as [T2 S2']. destruct Fc as (_ & _ & _ & Fc & _). fin p_method.
    - intros e a m b c0 d0 l0 g z sp es cs Pe He Wm G A Ha c cnt O. visit. go He as e1 k1 P T S Fc.
      destruct (Ha _ k1 (Hinert _ O)) as (es' & k2 & W2 & (P2 & S2)). rewrite (bind_ok _ _ _ _ _ W2). destruct (good_args _ S2) as [T2 S2']. destruct Fc as (_ & _ & _ & Fc & _). fin p_turbo.
    - intros e a m b Pe H Wm c cnt O. visit. go H as e1 k1 P T S Fc. destruct Fc as (_ & _ & _ & Fc & _). fin p_field.
    - intros e a n b Pe H Wm c cnt O. visit. go H as e1 k1 P T S Fc. destruct Fc as (_ & _ & _ & Fc & _). fin p_nth.
    - intros e a b Pe H c cnt O. visit. go H as e1 k1 P T S Fc. destruct Fc as (_ & _ & _ & Fc & _). fin p_await.
    - intros e sp Pe H c cnt O. visit. destruct (H _ cnt (Hinert _ O)) as (e1 & k1 & W & G & Fc). rewrite (bind_ok _ _ _ _ _ W).
      destruct (hook_applied (negb (is_skipped c)) e1 (etoks (ETry [] e sp)) Question sp _ k1 (Hinert _ O) G) as (e2 & k2 & W2 & (P & T & S)).
      rewrite (bind_ok _ _ _ _ _ W2). cbn beta iota. destruct Fc as (_ & _ & _ & Fc & _).
      assert (Fd : starts_block (etoks (actual e2)) = starts_block (etoks e)).
      { rewrite <- Fc. pose proof (hook_starts _ _ _ _ _ _ _ _ _ _ (Hinert _ O) G W2) as Q. exact Q. }
      fin p_try.
    - intros e sp i Pe He Sb F Hi c cnt O. visit. go He as e1 k1 P1 T1 S1 Fc. go Hi as e2 k2 P2 T2 S2 Fi. destruct Fc as (_ & _ & _ & Fc & _). fin p_index.
    - intros sp b B H c cnt O. visit. destruct (w_block b BlockTail _ cnt H (Hinert _ O)) as (b' & k1 & W & (P & S)); [discriminate|]. rewrite (bind_ok _ _ _ _ _ W). destruct (good_block _ S) as [T S']. fin p_block.
    - intros a sp b B H c cnt O. visit. destruct (w_block b BlockTail _ cnt H (Hinert _ O)) as (b' & k1 & W & (P & S)); [discriminate|]. rewrite (bind_ok _ _ _ _ _ W). destruct (good_block _ S) as [T S']. fin p_unsafe.
    - intros a cd sp b Pc Hc B H c cnt O. visit. go Hc as e1 k1 P1 T1 S1 Fc.
      destruct (w_block b BlockTail _ k1 H (Hinert _ O)) as (b' & k2 & W2 & (P & S)); [discriminate|]. rewrite (bind_ok _ _ _ _ _ W2). destruct (good_block _ S) as [T S']. cbn [optM]. rewrite (bind_ok _ _ _ _ _ eq_refl). fin p_if.
    - intros a cd sp b d el Pc Hc B H Pe He Bl c cnt O. visit. go Hc as e1 k1 P1 T1 S1 Fc.
      destruct (w_block b BlockTail _ k1 H (Hinert _ O)) as (b' & k2 & W2 & (P & S)); [discriminate|]. rewrite (bind_ok _ _ _ _ _ W2). destruct (good_block _ S) as [T S'].
      destruct (He _ k2 (Hsub _ (Hinert _ O))) as (e3 & k3 & W3 & (P3 & T3 & S3) & (Bl3 & _)). cbn [optM]. unfold bind at 1. unfold bind at 1. rewrite W3. cbn [ret]. fin p_else.
    - intros a e sp ms Pe He A Ha c cnt O. visit. go He as e1 k1 P1 T1 S1 Fc. destruct (Ha _ k1 (Hsub _ (Hinert _ O))) as (ms' & k2 & W2 & (P & S)). rewrite (bind_ok _ _ _ _ _ W2). destruct (good_arms _ S) as [T S']. fin p_match.
    - intros a sp b B H c cnt O. visit. destruct (w_block b BlockTail _ cnt H (Hinert _ O)) as (b' & k1 & W & (P & S)); [discriminate|]. rewrite (bind_ok _ _ _ _ _ W). destruct (good_block _ S) as [T S']. fin p_loop.
    - intros a cd sp b Pc Hc B H c cnt O. visit. go Hc as e1 k1 P1 T1 S1 Fc.
      destruct (w_block b BlockTail _ k1 H (Hinert _ O)) as (b' & k2 & W2 & (P & S)); [discriminate|]. rewrite (bind_ok _ _ _ _ _ W2). destruct (good_block _ S) as [T S']. fin p_while.
    - intros a pt i e sp b Pp Pe He B H c cnt O. visit. go He as e1 k1 P1 T1 S1 Fc.
      destruct (w_block b BlockTail _ k1 H (Hinert _ O)) as (b' & k2 & W2 & (P & S)); [discriminate|]. rewrite (bind_ok _ _ _ _ _ W2). destruct (good_block _ S) as [T S']. fin p_for.
    - intros e P. apply walks_up, u_post.
    - intros a e Pe H c cnt O. visit. go H as e1 k1 P T S Fc. fin u_ref.
    - intros a b e Pe H c cnt O. visit. go H as e1 k1 P T S Fc. fin u_mut.
    - intros x a e C Pe H c cnt O. visit. go H as e1 k1 P T S Fc. fin u_op.
    - intros e P. apply walks_up, o_un.
    - intros l o s r Ul Hl SB Sp Op Lo Ur Hr Lr A c cnt O. visit. go Hl as l1 k1 P1 T1 S1 F1. go Hr as r1 k2 P2 T2 S2 F2. destruct F1 as (_ & _ & Q1 & F1 & _). destruct F2 as (_ & _ & Q2 & _ & _). tops.
      do 2 eexists. split; [reflexivity|]. split; [split; [cbn [actual]; apply (o_binary true _ o s _); solve [assumption | congruence | lia | intro Q; specialize (A Q); congruence]|split; [text|parts]]|faces].
    - intros l o s r Ul Hl SB Sp Op Lo Ur Hr Lr c cnt O. visit. destruct (Hl _ cnt (Hinert _ O)) as (l1 & k1 & W1 & (P1 & T1 & S1) & F1). destruct (Hr _ k1 (Hinert _ O)) as (r1 & k2 & W2 & (P2 & T2 & S2) & F2). cbn [optM].
      unfold bind at 1. unfold bind at 1. rewrite W1. cbn [ret]. unfold bind at 1. unfold bind at 1. rewrite W2. cbn [ret]. destruct F1 as (_ & _ & Q1 & F1 & _). destruct F2 as (_ & _ & Q2 & _ & _). tops.
      do 2 eexists. split; [reflexivity|]. split; [split; [cbn [actual option_map]; apply (o_range true _ o s _); solve [assumption | congruence | lia]|split; [text|parts]]|faces].
    - intros l a r Ul Hl SB Ur Hr Lr c cnt O. visit. go Hr as r1 k2 P2 T2 S2 F2. destruct (good_written l (proj1 (proj2 fragment_written) l Ul)) as [Al [Tl Sl]].
      pose proof (proj1 (proj2 more) l Ul) as Ul'. destruct F2 as (_ & _ & Q2 & _ & _). tops.
      do 2 eexists. split; [reflexivity|]. split; [split; [cbn [actual]; rewrite Al; apply o_assign; solve [assumption | lia]|split; [text|parts]]|].
      split; [reflexivity|]. split; [reflexivity|]. split; [unfold top; cbn [actual lvl lead]; rewrite Al; reflexivity|]. split; [|reflexivity]. cbn [actual]. rewrite Al. toks. apply starts_pre; [eapply un_nonempty; exact Ul|eapply un_nonempty; exact Ul|reflexivity].
    - intros e P. apply walks_up, c_oper.
    - intros a pt q e Pp Pe H c cnt O. visit. go H as e1 k1 P T S Fc. fin c_let.
    - intros e P. apply walks_up, f_oper.
    - intros sp e Pe H c cnt O. visit. destruct (H _ cnt (Hinert _ O)) as (e1 & k1 & W & G & _). rewrite (bind_ok _ _ _ _ _ W).
      assert (Y : forall x, made (post true) x -> made (full true) (EReturn [] sp (Some x))).
      { intros x (P & T & S). split; [apply f_return; exact P|]. split; [text|parts]. }
      destruct (target_call_check (updated_by_inert_attr c inert0) e1) as [t nt]. destruct (t || return_type_is_result (updated_by_inert_attr c inert0) && negb nt).
      + destruct (hook_applied (negb (is_skipped c)) e1 (etoks (EReturn [] sp (Some e))) Return sp _ k1 (Hinert _ O) G) as (e2 & k2 & W2 & G2).
        rewrite (bind_ok _ _ _ _ _ W2). do 2 eexists. split; [reflexivity|]. split; [apply Y, G2|faces].
      + do 2 eexists. split; [reflexivity|]. split; [apply Y, G|faces].
    - intros sp c cnt O. visit. fin f_return_none.
    - intros sp c cnt O. visit. cbn [optM]. rewrite (bind_ok _ _ _ _ _ eq_refl). fin f_break.
    - intros sp e Pe H c cnt O. visit. destruct (H _ cnt (Hinert _ O)) as (e1 & k1 & W & (P & T & S) & _). cbn [optM]. unfold bind at 1. unfold bind at 1. rewrite W. cbn [ret]. fin f_break_some.
    - intros sp c cnt O. cbn [walk_expr attrs_now]. fin f_continue.
    - discriminate.
    - discriminate.
    - intros a ps b e Pp Pe H Sb c cnt O. visit. assert (H' : walks (full true) e) by (eapply walks_up; [|exact H]; intros x Px; apply f_oper, o_un, u_post, Px).
      match goal with |- context [update_fn_info ?c1 ?i] => set (c2 := update_fn_info c1 i); assert (O2 : ok c2) by (apply Hfn, Hinert, O) end.
      destruct (w_tail false e FnBlockTail c2 cnt (f_oper _ _ (o_un _ _ (u_post _ _ Pe))) H' O2) as (e1 & k1 & W & (_ & T & S) & _ & Q); [intros _; eapply post_is, Pe|].
      destruct (Q (post_is _ _ Pe)) as [P1 P2].
      assert (W' : match e with
                   | EBlock ba lbl bsp b => '(ba', _, c3) <- handle E ba c2; b' <- mapiM (fun i s => walk_stmt E (pos_kind FnBlockTail (List.length b) i) (for_sub_scope c3) s) 0 b; ret (EBlock ba' lbl bsp b')
                   | _ => handle_tail_with E (fun ov' c' => walk_expr E ov' c' e) e c2 FnBlockTail end cnt = Ok (e1, k1)) by (destruct e; try exact W; cbn in Sb; rewrite ?outer_nil in Sb; inversion Pe; subst; discriminate Sb).
      rewrite (bind_ok _ _ _ _ _ W'). rewrite <- P2 in Sb. fin f_lambda.
    - intros c cnt O. do 2 eexists. split; [reflexivity|]. split; constructor.
    - intros e F H c cnt O. cbn [mapM]. destruct (H c cnt O) as (e1 & k1 & W & (P & G) & _). rewrite (bind_ok _ _ _ _ _ W). do 2 eexists. split; [reflexivity|]. split; [constructor; exact P|repeat constructor; apply G].
    - intros e sp es cs F H A IH c cnt O. cbn [mapM]. destruct (H c cnt O) as (e1 & k1 & W & (P & G) & _). rewrite (bind_ok _ _ _ _ _ W). destruct (IH c k1 O) as (es' & k2 & W2 & (P2 & G2)).
      fold (mapM (walk_expr E None c)). rewrite (bind_ok _ _ _ _ _ W2). do 2 eexists. split; [reflexivity|]. split; [constructor; assumption|constructor; assumption].
    - intros c cnt O. do 2 eexists. split; [reflexivity|]. split; constructor.
    - intros pt i gd q g e Pp Gd Hg F H c cnt O. cbn [mapM]. destruct (w_arm _ e c cnt pt i gd q g [] Hg F H O) as (gd1 & e1 & k1 & W & G1 & M & P & _). rewrite (bind_ok _ _ _ _ _ W). do 2 eexists. split; [reflexivity|].
      split; [apply m_last; assumption|]. constructor; [exact M|constructor].
    - intros pt i gd q g e cm ms Pp Gd Hg F H A IH c cnt O. cbn [mapM]. destruct (w_arm _ e c cnt pt i gd q g [TPunct "," cm] Hg F H O) as (gd1 & e1 & k1 & W & G1 & M & P & _). rewrite (bind_ok _ _ _ _ _ W).
      destruct (IH c k1 O) as (ms' & k2 & W2 & (P2 & G2)). fold (mapM (walk_arm E c)). rewrite (bind_ok _ _ _ _ _ W2). do 2 eexists. split; [reflexivity|].
      split; [apply m_comma; assumption|]. constructor; assumption.
    - intros pt i gd q g e ms Pp Gd Hg Pe H Bl A IH c cnt O. assert (H' : walks (full true) e) by (eapply walks_up; [|exact H]; intros x Px; apply f_oper, o_un, u_post, Px).
      cbn [mapM]. destruct (w_arm false e c cnt pt i gd q g [] Hg (f_oper _ _ (o_un _ _ (u_post _ _ Pe))) H' O) as (gd1 & e1 & k1 & W & G1 & M & P & B). rewrite (bind_ok _ _ _ _ _ W).
      destruct (IH c k1 O) as (ms' & k2 & W2 & (P2 & G2)). fold (mapM (walk_arm E c)). rewrite (bind_ok _ _ _ _ _ W2). do 2 eexists. split; [reflexivity|]. specialize (B Bl).
      split; [apply m_blocky; auto; eapply blocky_post; eassumption|]. constructor; assumption.
    - intros c cnt O. do 2 eexists. split; [reflexivity|]. split; [constructor|]. split; [reflexivity|constructor].
    - intros a e Oe H c cnt O. destruct (H c cnt O) as (e1 & k1 & W & (P & T & S) & _). cbn [optM]. rewrite (bind_ok _ _ _ _ _ W). do 2 eexists. split; [reflexivity|]. split; [constructor; exact P|]. split; [cbn; rewrite T; reflexivity|exact S].
    - intros tk c cnt i O Tf. do 2 eexists. split; [reflexivity|]. split; constructor.
    - intros e F H tk c cnt i O Tf. cbn [mapiM]. destruct (w_stmt _ e (pos_kind tk (i + 1) i) c cnt F H O) as (e1 & k1 & W & (P1 & T & S) & _).
      { unfold pos_kind. destruct (Nat.eqb _ _); [|discriminate]. intro Q. exact (Tf Q [] e eq_refl). }
      cbn [List.length]. rewrite (bind_ok _ _ _ _ _ W).
      do 2 eexists. split; [reflexivity|]. split; [constructor; exact P1|]. constructor; [|constructor]. split; [|exact S]. cbn [stmt_actual stoks]. rewrite T. reflexivity.
    - intros a pt c0 e d b Pp F H B IH tk c cnt i O Tf. cbn [mapiM]. cbn [walk_stmt].
      assert (X : exists e' k, (
         '(a', _, c') <- handle E [] c; e' <- walk_expr E None c' e; el' <- optM (walk_expr E None c') None;
         ret (SLocalInit a' (TIdent "let" a :: pt ++ [TPunct "=" c0]) e' [] el' [TPunct ";" d])) cnt = Ok (SLocalInit [] (TIdent "let" a :: pt ++ [TPunct "=" c0]) e' [] None [TPunct ";" d], k) /\ made (full true) e').
      { on_handle. destruct (H _ cnt (Hinert _ O)) as (e1 & k1 & W & G & _). rewrite (bind_ok _ _ _ _ _ W). do 2 eexists. split; [reflexivity|exact G]. }
      destruct X as (e1 & k1 & W & (P & T & S)). rewrite (bind_ok _ _ _ _ _ W). destruct (IH tk c k1 (Datatypes.S i) O (tail_next _ _ _ Tf)) as (b' & k2 & W2 & (P2 & G2)).
      cbn [List.length]. rewrite <- Nat.add_succ_comm. erewrite bind_ok; [|exact W2]. do 2 eexists. split; [reflexivity|].
      split; [apply b_let; assumption|]. constructor; [|exact G2]. split; [cbn [stmt_actual stoks option_map]; rewrite T; reflexivity|]. cbn [stmt_subs opt_list]. rewrite app_nil_r. exact S.
    - intros a pt d b Pp B IH tk c cnt i O Tf. cbn [mapiM walk_stmt]. rewrite (bind_ok _ _ _ _ _ eq_refl).
      destruct (IH tk c cnt (Datatypes.S i) O (tail_next _ _ _ Tf)) as (b' & k2 & W2 & (P2 & G2)).
      cbn [List.length]. rewrite <- Nat.add_succ_comm. erewrite bind_ok; [|exact W2]. do 2 eexists. split; [reflexivity|].
      split; [apply b_local; assumption|]. constructor; [|exact G2]. split; [reflexivity|constructor].
    - intros a pt c0 e k sp eb d b Pp Pe He Sb Eb Hb B IH tk c cnt i O Tf. cbn [mapiM]. cbn [walk_stmt].
      assert (X : exists e' eb' k1, (
         '(a', _, c') <- handle E [] c; e' <- walk_expr E None c' e; el' <- optM (walk_expr E None c') (Some (EBlock [] [] sp eb));
         ret (SLocalInit a' (TIdent "let" a :: pt ++ [TPunct "=" c0]) e' [TIdent "else" k] el' [TPunct ";" d])) cnt =
         Ok (SLocalInit [] (TIdent "let" a :: pt ++ [TPunct "=" c0]) e' [TIdent "else" k] (Some (EBlock [] [] sp eb')) [TPunct ";" d], k1) /\ made (post true) e' /\ starts_block (etoks (actual e')) = false /\ gblock eb').
      { on_handle. destruct (He _ cnt (Hinert _ O)) as (e1 & k1 & W & G & (_ & _ & _ & Fc & _)). rewrite (bind_ok _ _ _ _ _ W).
        destruct (w_block eb BlockTail _ k1 Hb (Hinert _ (Hinert _ O))) as (eb' & k2 & W2 & G2); [discriminate|].
        exists e1, eb', k2. split; [|split; [exact G|split; [congruence|exact G2]]]. cbn [optM]. erewrite bind_ok; [reflexivity|]. erewrite bind_ok; [reflexivity|]. visit. erewrite bind_ok; [reflexivity|exact W2]. }
      destruct X as (e1 & eb' & k1 & W & (P & T & S) & Sb' & (P3 & G3)). rewrite (bind_ok _ _ _ _ _ W). destruct (IH tk c k1 (Datatypes.S i) O (tail_next _ _ _ Tf)) as (b' & k2 & W2 & (P2 & G2)).
      cbn [List.length]. rewrite <- Nat.add_succ_comm. erewrite bind_ok; [|exact W2]. do 2 eexists. split; [reflexivity|]. destruct (good_block _ G3) as [T3 S3].
      split; [cbn [map stmt_actual option_map actual]; apply b_let_else; assumption|]. constructor; [|exact G2]. split; [cbn [stmt_actual stoks option_map actual opt_toks etoks]; rewrite T, T3; reflexivity|].
      cbn [stmt_subs opt_list subs]. repeat (apply Forall_app; split); auto; repeat constructor.
    - intros e sp b F H B IH tk c cnt i O Tf. cbn [mapiM walk_stmt]. destruct (H c cnt O) as (e1 & k1 & W & (P & T & S) & _).
      erewrite bind_ok; [|erewrite bind_ok; [reflexivity|exact W]]. destruct (IH tk c k1 (Datatypes.S i) O (tail_next _ _ _ Tf)) as (b' & k2 & W2 & (P2 & G2)).
      cbn [List.length]. rewrite <- Nat.add_succ_comm. erewrite bind_ok; [|exact W2]. do 2 eexists. split; [reflexivity|].
      split; [apply b_semi; assumption|]. constructor; [|exact G2]. split; [cbn [stmt_actual stoks]; rewrite T; reflexivity|exact S].
    - intros e b P H Bl B IH tk c cnt i O Tf. assert (H' : walks (full true) e) by (eapply walks_up; [|exact H]; intros x Px; apply f_oper, o_un, u_post, Px).
      cbn [mapiM]. destruct (w_stmt false e (pos_kind tk (i + List.length (SExpr e None :: b)) i) c cnt (f_oper _ _ (o_un _ _ (u_post _ _ P))) H' O) as (e1 & k1 & W & (P1 & T & S) & Q).
      { intros _. eapply post_is, P. }
      rewrite (bind_ok _ _ _ _ _ W).
      destruct (IH tk c k1 (Datatypes.S i) O (tail_next _ _ _ Tf)) as (b' & k2 & W2 & (P2 & G2)).
      cbn [List.length]. rewrite <- Nat.add_succ_comm. erewrite bind_ok; [|exact W2]. do 2 eexists. split; [reflexivity|].
      assert (Sg : sgood (SExpr e1 None)) by (split; [cbn [stmt_actual stoks]; rewrite T; reflexivity|exact S]).
      split; [|constructor; assumption]. cbn [map stmt_actual]. destruct b as [|s b].
      + cbn in W2. injection W2 as <- <-. apply b_last, P1.
      + assert (Bl1 : blocky (actual e1) = true).
        { apply Q; [|exact Bl]. unfold pos_kind. cbn [List.length]. replace (Nat.eqb i _) with false; [discriminate|]. symmetry. apply Nat.eqb_neq. lia. }
        apply b_blocky; [eapply blocky_post; eassumption|exact Bl1|exact P2].
  Qed.
End Closed.

Lemma all_foreign env l es : node_events env l es -> es = [] -> foreign l = l.
Proof.
  induction 1 as [|a l e es Hh Hr H IH|a l es Hh Hn H IH]; intros X; try discriminate; [reflexivity|]. unfold foreign in *. cbn [filter]. rewrite Hh. cbn [negb]. rewrite IH by exact X. reflexivity.
Qed.
