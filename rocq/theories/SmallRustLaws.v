(** The parser of the small part of Rust looks neither at positions nor into literals. *)
From Coq Require Import String Ascii Bool Arith Lia List.
From Verif Require Import Base Tokens Method Paths Context Flavor Attrs Syntax Walker GrammarSpec AlikeSpec MoveSpec SmallRust SmallRustProofs.
Import ListNotations.
Open Scope string_scope.
Open Scope list_scope.

Inductive like : tt -> tt -> Prop :=
| lk_ident : forall s sp sp', like (TIdent s sp) (TIdent s sp')
| lk_punct : forall c sp sp', like (TPunct c sp) (TPunct c sp')
| lk_lit : forall l l' sp sp', numeral l' = numeral l -> like (TLit l sp) (TLit l' sp')
| lk_group : forall d ts ts' sp sp', Forall2 like ts ts' -> like (TGroup d ts sp) (TGroup d ts' sp').
Fixpoint like_sym t t' (H : like t t') {struct H} : like t' t.
Proof.
  destruct H as [| |l l' sp sp' E|d ts ts' sp sp' H]; try constructor; [symmetry; exact E|]. revert ts ts' H. fix go 3. intros ts ts' H. destruct H; constructor; [apply like_sym; assumption|apply go; assumption].
Defined.
Lemma likes_sym ts ts' : Forall2 like ts ts' -> Forall2 like ts' ts.
Proof. induction 1; constructor; auto using like_sym. Qed.

(** the same path, call of a path, or neither *)
Definition same_top (e e' : expr) : Prop :=
  (exists x sp sp', e = name x sp /\ e' = name x sp') \/
  (exists x sp0 sp0' sp sp' es es' cs cs', e = ECall [] (name x sp0) sp es cs /\ e' = ECall [] (name x sp0') sp' es' cs') \/
  (exists x sp sp' hs hs', e = far x sp hs /\ e' = far x sp' hs' /\ map h_id hs' = map h_id hs) \/
  (exists x sp0 sp0' hs hs' sp sp' es es' cs cs', e = ECall [] (far x sp0 hs) sp es cs /\ e' = ECall [] (far x sp0' hs') sp' es' cs' /\ map h_id hs' = map h_id hs) \/
  (shape_of e = ShOther /\ shape_of e' = ShOther).
Lemma like_hops hs ts : Forall2 like (flat_map hop_toks hs) ts -> exists hs', ts = flat_map hop_toks hs' /\ map h_id hs' = map h_id hs.
Proof.
  revert ts. induction hs as [|h hs IH]; intros ts H; cbn in H; [inversion H; exists []; split; reflexivity|].
  repeat match goal with H : Forall2 like (_ :: _) _ |- _ => inversion H; subst; clear H | H : like (TIdent _ _) _ |- _ => inversion H; subst; clear H | H : like (TPunct _ _) _ |- _ => inversion H; subst; clear H end.
  match goal with H : Forall2 like _ _ |- _ => destruct (IH _ H) as (hs' & -> & E) end. eexists (mk_hop _ _ (h_id h) _ :: hs'). split; [reflexivity|]. cbn. rewrite E. reflexivity.
Qed.
Lemma hops_like hs hs' : map h_id hs' = map h_id hs -> hops hs -> hops hs'.
Proof. unfold hops. rewrite <- !(Forall_map h_id). intros ->. auto. Qed.
Lemma like_starts ts ts' : Forall2 like ts ts' -> starts_block ts' = starts_block ts.
Proof. intros [|t t' l l' H _]; [reflexivity|]. destruct H; reflexivity. Qed.
Lemma like_spell o o' : Forall2 like o o' -> spell o' = spell o.
Proof. induction 1 as [|t t' l l' H _ IH]; [reflexivity|]. destruct H; try reflexivity. cbn [spell]. rewrite IH. reflexivity. Qed.
Lemma like_all (p : tt -> bool) ts ts' : (forall t t', like t t' -> p t' = p t) -> Forall2 like ts ts' -> forallb p ts' = forallb p ts.
Proof. intro L. induction 1 as [|t t' l l' H _ IH]; [reflexivity|]. cbn [forallb]. rewrite IH, (L _ _ H). reflexivity. Qed.
Lemma like_pat pt pt' : Forall2 like pt pt' -> pat pt -> pat pt'.
Proof.
  intros H. pose proof (like_all pat_tok _ _ ltac:(intros t t' []; reflexivity) H) as A. destruct H as [|t t' l l' H _]; [auto|]. cbn [pat]. rewrite A. destruct H; auto.
Qed.
Lemma like_params ps ps' : Forall2 like ps ps' -> params ps -> params ps'.
Proof. intros H. unfold params. rewrite (like_all param_tok _ _ ltac:(intros t t' []; reflexivity) H). auto. Qed.
Lemma like_inside ts ts' : Forall2 like ts ts' -> forall d, inside d ts' = inside d ts.
Proof.
  induction 1 as [|t t' l l' H _ IH]; intro d; [reflexivity|]. destruct H; cbn [inside]; rewrite ?IH; try reflexivity. destruct (Ascii.eqb c ">"); [|reflexivity]. destruct d; rewrite ?IH; reflexivity.
Qed.
Lemma like_generics ts ts' : Forall2 like ts ts' -> generics ts -> generics ts'.
Proof. intros H. unfold generics. rewrite (like_inside _ _ H). auto. Qed.
Definition kept (a b : list tt) : Prop := Forall2 like a b.
Section Like.
  Variable cl : bool.
  Definition copies (P : expr -> Prop) (e : expr) : Prop :=
    forall ts', Forall2 like (etoks e) ts' -> exists e', P e' /\ etoks e' = ts' /\ same_top e e' /\ blocky e' = blocky e /\ top e' = top e /\ starts_block (etoks e') = starts_block (etoks e).
  Definition args_copy (es : list expr) (cs : list tt) : Prop :=
    forall ts', Forall2 like (punctuated (map etoks es) cs) ts' -> exists es' cs', args cl es' cs' /\ punctuated (map etoks es') cs' = ts' /\ (cs <> [] -> cs' <> []).
  Definition arms_copy (ms : list arm) : Prop := forall ts', Forall2 like (flat_map armtoks ms) ts' -> exists ms', arms cl ms' /\ flat_map armtoks ms' = ts'.
  Definition guard_copies (i : list tt) (gd : option expr) : Prop :=
    forall ti tg, Forall2 like i ti -> Forall2 like (opt_toks etoks gd) tg -> exists gd', guard cl ti gd' /\ opt_toks etoks gd' = tg.
  Definition block_copies (b : list stmt) : Prop := forall ts', Forall2 like (flat_map stoks b) ts' -> exists b', block cl b' /\ flat_map stoks b' = ts'.
  Ltac inv H := inversion H; subst; clear H.
  Ltac peel := repeat match goal with
    | H : Forall2 like [] _ |- _ => inv H
    | H : Forall2 like (_ :: _) _ |- _ => inv H
    | H : Forall2 like (_ ++ _) _ |- _ => apply Forall2_app_inv_l in H; destruct H as (? & ? & ? & ? & ?); subst
    | H : like (TIdent _ _) _ |- _ => inv H
    | H : like (TPunct _ _) _ |- _ => inv H
    | H : like (TLit _ _) _ |- _ => inv H
    | H : like (TGroup _ _ _) _ |- _ => inv H
    end.
  Ltac hyps := repeat match goal with
    | IH : copies _ ?e, H : Forall2 like (etoks ?e) _ |- _ => destruct (IH _ H) as (? & ? & <- & ? & ? & ? & ?); clear IH H
    | IH : args_copy ?es ?cs, H : Forall2 like (punctuated (map etoks ?es) ?cs) _ |- _ => destruct (IH _ H) as (? & ? & ? & <- & ?); clear IH H
    | IH : arms_copy ?ms, H : Forall2 like (flat_map armtoks ?ms) _ |- _ => destruct (IH _ H) as (? & ? & <-); clear IH H
    | IH : block_copies ?b, H : Forall2 like (flat_map stoks ?b) _ |- _ => destruct (IH _ H) as (? & ? & <-); clear IH H
    | IH : guard_copies ?i ?gd, H : Forall2 like ?i _, G : Forall2 like (opt_toks etoks ?gd) _ |- _ => destruct (IH _ _ H G) as (? & ? & <-); clear IH H G
    | P : generics ?ps, H : Forall2 like ?ps _ |- _ => pose proof (like_generics _ _ H P); clear P H
    | P : params ?ps, H : Forall2 like ?ps _ |- _ => pose proof (like_params _ _ H P); clear P H
    | P : pat ?pt, H : Forall2 like ?pt _ |- _ => pose proof (like_pat _ _ H P); clear P H
    end.
  Ltac open H := toks; rewrite ?name_toks in H; cbn [map punctuated] in H; rewrite <- ?app_assoc in H; cbn [app] in H; rewrite <- ?app_assoc in H; rewrite ?app_nil_r in H; cbn [app] in H; peel; hyps.
  Ltac other := do 4 right; split; reflexivity.
  Ltac looks := unfold fish; toks; rewrite <- ?app_assoc; cbn [app]; rewrite <- ?app_assoc; reflexivity.
  (** the tree, and the rule that makes it *)
  Lemma copy_of (P : expr -> Prop) e e' : P e' -> shape_of e = ShOther -> shape_of e' = ShOther -> blocky e' = blocky e -> top e' = top e -> Forall2 like (etoks e) (etoks e') ->
    exists x, P x /\ etoks x = etoks e' /\ same_top e x /\ blocky x = blocky e /\ top x = top e /\ starts_block (etoks x) = starts_block (etoks e).
  Proof. intros. exists e'. repeat split; auto; [do 4 right; auto|apply like_starts; assumption]. Qed.
  Tactic Notation "done" open_constr(tree) constr(rule) :=
    lazymatch goal with L : kept _ ?ts' |- exists x, ?P x /\ etoks x = ?ts' /\ same_top ?e x /\ _ =>
      let Q := fresh "Q" in assert (Q : ts' = etoks tree) by looks; rewrite Q in L |- *; apply (copy_of P e tree); [apply rule; solve [eassumption | reflexivity | congruence | auto | intros; match goal with F : ?a = ?b -> _, G : ?a = ?b |- _ => specialize (F G) end; congruence]|reflexivity|reflexivity|reflexivity|reflexivity|exact L]
    end.

  Ltac split_tops := repeat match goal with T : top ?x = top ?y |- _ => let a := fresh "Lx" in let b := fresh "Rx" in pose proof (f_equal fst T) as a; pose proof (f_equal snd T) as b; cbn [top fst snd] in a, b; clear T end.
  Tactic Notation "chain" open_constr(tree) constr(rule) :=
    lazymatch goal with L : kept _ ?ts' |- exists x, ?P x /\ etoks x = ?ts' /\ same_top ?e x /\ _ =>
      let Q := fresh "Q" in assert (Q : ts' = etoks tree) by looks; rewrite Q in L |- *; apply (copy_of P e tree);
        [apply rule; solve [eassumption | reflexivity | lia | congruence | auto | intros; match goal with F : ?a = ?b -> _, G : ?a = ?b |- _ => specialize (F G) end; congruence]|reflexivity|reflexivity|reflexivity|unfold top; cbn [lvl lead]; apply f_equal2; [first [reflexivity|assumption]|assumption]|exact L]
    end.
  Lemma all_copy :
    (forall e, post cl e -> copies (post cl) e) /\ (forall e, un cl e -> copies (un cl) e) /\ (forall e, oper cl e -> copies (oper cl) e) /\ (forall e, cond cl e -> copies (cond cl) e) /\ (forall e, full cl e -> copies (full cl) e) /\
    (forall es cs, args cl es cs -> args_copy es cs) /\ (forall ms, arms cl ms -> arms_copy ms) /\ (forall i gd, guard cl i gd -> guard_copies i gd) /\ (forall b, block cl b -> block_copies b).
  Proof.
    assert (Up : forall (P Q : expr -> Prop) e, (forall e, P e -> Q e) -> copies P e -> copies Q e).
    { intros P Q e HPQ IH ts' H. destruct (IH _ H) as (e' & P' & T). exists e'. split; [apply HPQ, P'|exact T]. }
    apply (tree_mut cl (copies (post cl)) (copies (un cl)) (copies (oper cl)) (copies (cond cl)) (copies (full cl)) args_copy arms_copy guard_copies block_copies).
    - intros x sp W ts' H. open H. eexists (name x _). split; [|split; [reflexivity|split; [left; eauto|repeat split]]]. constructor. exact W.
    - intros x sp h hs W Hh ts' H. rewrite far_toks in H. inversion H as [|? ? ? ? Hx L]; subst; clear H. destruct (like_hops (h :: hs) _ L) as (hs' & -> & Eh). clear L. inv Hx.
      destruct hs' as [|h' hs']; [discriminate Eh|]. eexists (far x _ (h' :: hs')). split; [apply p_far; [exact W|exact (hops_like _ _ Eh Hh)]|]. split; [apply far_toks|]. split; [right; right; left; repeat eexists; exact Eh|]. rewrite !far_toks. repeat split.
    - intros l sp ts' H. pose proof (H : kept _ _) as L. open H. done (ELit [] _ _) p_lit.
    - intros sp ts' H. pose proof (H : kept _ _) as L. open H. done (ETuple [] _ [] []) p_unit.
    - intros sp e F IH ts' H. pose proof (H : kept _ _) as L. open H. done (EParen [] _ _) p_paren.
    - intros sp es cs A IH C ts' H. pose proof (H : kept _ _) as L. open H. done (ETuple [] _ _ _) p_tuple.
    - intros sp es cs A IH ts' H. pose proof (H : kept _ _) as L. open H. done (EArray [] _ _ _) p_array.
    - intros x sp0 sp es cs W A IH ts' H. open H. eexists (ECall [] (name x _) _ _ _). split; [|split; [toks; rewrite name_toks; reflexivity|split; [right; left; repeat eexists|repeat split]]]. apply p_call; assumption.
    - intros x sp0 h hs sp es cs W Hh A IH ts' H. cbn [etoks] in H. rewrite far_toks, outer_nil in H. cbn [app] in H. inversion H as [|? ? ? ? Hx Q]; subst; clear H. apply (Forall2_app_inv_l (flat_map hop_toks (h :: hs)) [TGroup Parenth _ _]) in Q. destruct Q as (l1 & l2 & L & Q & ->).
      destruct (like_hops (h :: hs) _ L) as (hs' & -> & Eh). clear L. inv Hx. inv Q. peel. hyps.
      destruct hs' as [|h' hs']; [discriminate Eh|]. eexists (ECall [] (far x _ (h' :: hs')) _ _ _). split; [apply p_call_far; [exact W|exact (hops_like _ _ Eh Hh)|eassumption]|]. split; [cbn [etoks]; rewrite far_toks; reflexivity|].
      split; [do 3 right; left; repeat eexists; exact Eh|]. cbn [etoks]. rewrite !far_toks. repeat split.
    - intros e a m b sp es cs P IH W A IHa ts' H. pose proof (H : kept _ _) as L. open H. done (EMethodCall [] _ [TPunct "." _; TIdent m _] _ _ _) p_method.
    - intros e a m b c d l g z sp es cs P IH W G A IHa ts' H. pose proof (H : kept _ _) as L. unfold fish in H. open H. match goal with _ : generics ?p |- _ => done (EMethodCall [] _ (TPunct "." _ :: TIdent m _ :: fish _ _ _ p _) _ _ _) p_turbo end.
    - intros e a m b P IH W ts' H. pose proof (H : kept _ _) as L. open H. done (EField [] _ [TPunct "." _; TIdent m _]) p_field.
    - intros e a n b P IH W ts' H. pose proof (H : kept _ _) as L. open H. match goal with E : numeral ?n' = numeral n |- _ => rewrite W in E; done (EField [] _ [TPunct "." _; TLit n' _]) p_nth end.
    - intros e a b P IH ts' H. pose proof (H : kept _ _) as L. open H. done (EAwait [] _ [TPunct "." _; TIdent "await" _]) p_await.
    - intros e sp P IH ts' H. pose proof (H : kept _ _) as L. open H. done (ETry [] _ _) p_try.
    - intros e sp i P IH S F IHi ts' H. pose proof (H : kept _ _) as L. open H. done (EIndex [] _ _ _) p_index.
    - intros sp b B IH ts' H. pose proof (H : kept _ _) as L. open H. done (EBlock [] [] _ _) p_block.
    - intros a sp b B IH ts' H. pose proof (H : kept _ _) as L. open H. done (EUnsafe [] [TIdent "unsafe" _] _ _) p_unsafe.
    - intros a c sp b P IH B IHb ts' H. pose proof (H : kept _ _) as L. open H. done (EIf [] [TIdent "if" _] _ _ _ [] None) p_if.
    - intros a c sp b d el P IH B IHb Pe IHe Bl ts' H. pose proof (H : kept _ _) as L. open H. done (EIf [] [TIdent "if" _] _ _ _ [TIdent "else" _] (Some _)) p_else.
    - intros a e sp ms O IH A IHm ts' H. pose proof (H : kept _ _) as L. open H. done (EMatch [] [TIdent "match" _] _ _ _) p_match.
    - intros a sp b B IH ts' H. pose proof (H : kept _ _) as L. open H. done (ELoop [] [TIdent "loop" _] _ _) p_loop.
    - intros a c sp b C IH B IHb ts' H. pose proof (H : kept _ _) as L. open H. done (EWhile [] [TIdent "while" _] _ _ _) p_while.
    - intros a pt i e sp b P O IH B IHb ts' H. pose proof (H : kept _ _) as L. open H. match goal with _ : pat ?p |- _ => done (EForLoop [] (TIdent "for" _ :: p ++ [TIdent "in" _]) _ _ _) p_for end.
    - intros e P IH. eapply Up; [|exact IH]. apply u_post.
    - intros a e P IH ts' H. pose proof (H : kept _ _) as L. open H. done (EReference [] [TPunct "&" _] _) u_ref.
    - intros a b e P IH ts' H. pose proof (H : kept _ _) as L. open H. done (EReference [] [TPunct "&" _; TIdent "mut" _] _) u_mut.
    - intros c a e C P IH ts' H. pose proof (H : kept _ _) as L. open H. done (EUnary [] [TPunct c _] _) u_op.
    - intros e P IH. eapply Up; [|exact IH]. apply o_un.
    - intros l o s r U IH SB Sp O Lo U2 IH2 Lr A ts' H. pose proof (H : kept _ _) as L. open H. match goal with H : Forall2 like o ?o' |- _ => pose proof (like_spell _ _ H) as Sp'; clear H; rewrite Sp in Sp'; assert (Lv : level o' = level o) by (unfold level; rewrite Sp, Sp'; reflexivity);
        split_tops; chain (EBinary [] _ o' _) (fun l o r => o_binary cl l o s r) end.
    - intros l o s r U IH SB Sp O Lo U2 IH2 Lr ts' H. pose proof (H : kept _ _) as L. open H. match goal with H : Forall2 like o ?o' |- _ => pose proof (like_spell _ _ H) as Sp'; clear H; rewrite Sp in Sp'; assert (Lv : level o' = level o) by (unfold level; rewrite Sp, Sp'; reflexivity);
        split_tops; chain (ERange [] (Some _) o' (Some _)) (fun l o r => o_range cl l o s r) end.
    - intros l a r U IH SB U2 IH2 Lr ts' H. pose proof (H : kept _ _) as L. open H. split_tops. assert (Lv : level [TPunct "=" a] = 0) by reflexivity. chain (EAssign [] _ [TPunct "=" _] _) o_assign.
    - intros e P IH. eapply Up; [|exact IH]. apply c_oper.
    - intros a pt q e P U IH ts' H. pose proof (H : kept _ _) as L. open H. match goal with _ : pat ?p |- _ => done (ELet [] (TIdent "let" _ :: p ++ [TPunct "=" _]) _) c_let end.
    - intros e P IH. eapply Up; [|exact IH]. apply f_oper.
    - intros sp e P IH ts' H. pose proof (H : kept _ _) as L. open H. done (EReturn [] _ (Some _)) f_return.
    - intros sp ts' H. pose proof (H : kept _ _) as L. open H. done (EReturn [] _ None) f_return_none.
    - intros sp ts' H. pose proof (H : kept _ _) as L. open H. done (EBreak [] [TIdent "break" _] None) f_break.
    - intros sp e P IH ts' H. pose proof (H : kept _ _) as L. open H. done (EBreak [] [TIdent "break" _] (Some _)) f_break_some.
    - intros sp ts' H. pose proof (H : kept _ _) as L. open H. done (EContinue [] [TIdent "continue" _]) f_continue.
    - intros a b ts sp C ts' H. pose proof (H : kept _ _) as L. open H. done (EClosure [] [TPunct "|" _; TPunct "|" _] RetNone (EVerbatim [TGroup Brace _ _])) f_closure.
    - intros a x s b ts sp C W ts' H. pose proof (H : kept _ _) as L. open H. done (EClosure [] [TPunct "|" _; TIdent x _; TPunct "|" _] RetNone (EVerbatim [TGroup Brace _ _])) f_closure_1.
    - intros a ps b e Pp P IH S ts' H. pose proof (H : kept _ _) as L. open H. match goal with _ : params ?p |- _ => done (EClosure [] (TPunct "|" _ :: p ++ [TPunct "|" _]) RetNone _) f_lambda end.
    - intros ts' H. inv H. exists [], []. split; [constructor|split; [reflexivity|auto]].
    - intros e F IH ts' H. open H. eexists [_], []. split; [|split; [cbn [map punctuated]; rewrite app_nil_r; reflexivity|auto]]. constructor. assumption.
    - intros e sp es cs F IH A IHa ts' H. open H. eexists (_ :: _), (TPunct "," _ :: _). split; [|split; [cbn [map punctuated]; reflexivity|discriminate]]. constructor; assumption.
    - intros ts' H. inv H. exists []. split; [constructor|reflexivity].
    - intros pt i gd q g e P G IHg F IH ts' H. cbn [flat_map] in H. rewrite armtoks_eq in H. unfold armt in H. open H. match goal with _ : pat ?p, _ : guard cl ?i0 _ |- _ => eexists [an_arm p i0 _ _ _ _ []] end. split; [|cbn [flat_map]; rewrite armtoks_eq; unfold armt; rewrite !app_nil_r; reflexivity]. constructor; eassumption.
    - intros pt i gd q g e c ms P G IHg F IH A IHm ts' H. cbn [flat_map] in H. rewrite armtoks_eq in H. unfold armt in H. open H. match goal with _ : pat ?p, _ : guard cl ?i0 _ |- _ => eexists (an_arm p i0 _ _ _ _ [TPunct "," _] :: _) end. split; [|cbn [flat_map]; rewrite armtoks_eq; unfold armt; looks]. constructor; eassumption.
    - intros pt i gd q g e ms P G IHg F IH Bl A IHm ts' H. cbn [flat_map] in H. rewrite armtoks_eq in H. unfold armt in H. open H. match goal with _ : pat ?p, _ : guard cl ?i0 _ |- _ => eexists (an_arm p i0 _ _ _ _ [] :: _) end. split; [|cbn [flat_map]; rewrite armtoks_eq; unfold armt; rewrite app_nil_r; looks]. apply m_blocky; solve [eassumption|congruence].
    - intros ti tg H G. cbn [opt_toks] in G. inv H. inv G. exists None. split; [constructor|reflexivity].
    - intros a e O IH ti tg H G. cbn [opt_toks] in G. peel. hyps. eexists (Some _). split; [constructor; eassumption|reflexivity].
    - intros ts' H. inv H. exists []. split; [constructor|reflexivity].
    - intros e P IH ts' H. toks. rewrite !app_nil_r in H. hyps. eexists [SExpr _ None]. split; [|toks; rewrite !app_nil_r; reflexivity]. constructor; assumption.
    - intros a pt c e d b W F IH B IHb ts' H. open H. match goal with _ : pat ?p |- _ => eexists (SLocalInit [] (TIdent "let" _ :: p ++ [TPunct "=" _]) _ [] None [TPunct ";" _] :: _) end. split; [|looks]. apply b_let; assumption.
    - intros a pt d b W B IHb ts' H. open H. match goal with _ : pat ?p |- _ => eexists (SLocal [] (TIdent "let" _ :: p) [TPunct ";" _] :: _) end. split; [|looks]. apply b_local; assumption.
    - intros a pt c e k sp eb d b W P IH S Eb IHe B IHb ts' H. open H. match goal with _ : pat ?p |- _ => eexists (SLocalInit [] (TIdent "let" _ :: p ++ [TPunct "=" _]) _ [TIdent "else" _] (Some (EBlock [] [] _ _)) [TPunct ";" _] :: _) end. split; [|looks]. apply b_let_else; solve [assumption|congruence].
    - intros e sp b F IH B IHb ts' H. open H. eexists (SExpr _ (Some _) :: _). split; [|looks]. constructor; assumption.
    - intros e b P IH Bl B IHb ts' H. open H. eexists (SExpr _ None :: _). split; [|toks; rewrite <- app_assoc; reflexivity]. apply b_blocky; solve [assumption|congruence].
  Qed.
  Lemma full_copies e : full cl e -> copies (full cl) e.
  Proof. exact (proj1 (proj2 (proj2 (proj2 (proj2 all_copy)))) e). Qed.
End Like.
(** texts that are alike are read alike *)
Theorem parse_like ts ts' : Forall2 like ts ts' ->
  match rust_parse ts, rust_parse ts' with
  | Some r, Some r' => etoks r = ts /\ etoks r' = ts' /\ same_top r r'
  | None, None => True
  | _, _ => False
  end.
Proof.
  intro H. destruct (rust_parse ts) as [r|] eqn:E.
  - apply parse_iff in E. destruct E as [F <-]. destruct (full_copies true r F ts' H) as (r' & F' & <- & S & _).
    rewrite (proj2 (parse_iff (etoks r') r') (conj F' eq_refl)). auto.
  - destruct (rust_parse ts') as [r'|] eqn:E'; [|exact I]. apply parse_iff in E'. destruct E' as [F <-].
    destruct (full_copies true r' F ts (likes_sym _ _ H)) as (r & F2 & T & _). rewrite (proj2 (parse_iff ts r) (conj F2 T)) in E. discriminate.
Qed.
(** no operator [as] *)
Definition no_as_tok (t : tt) : bool := match t with TIdent s _ => negb (String.eqb s "as") | _ => true end.
Lemma word_as x : word x -> String.eqb x "as" = false.
Proof. intro W. apply word_not; [exact W|]. unfold keywords. simpl. tauto. Qed.
Lemma root_as x : root x -> String.eqb x "as" = false.
Proof. intro W. apply root_not; [exact W|unfold keywords; simpl; tauto|discriminate]. Qed.
Lemma first_as x : first x -> String.eqb x "as" = false.
Proof. intro W. apply first_not; [exact W|unfold keywords; simpl; tauto|intro H; simpl in H; intuition discriminate]. Qed.
Lemma hops_as hs : hops hs -> forallb no_as_tok (flat_map hop_toks hs) = true.
Proof. induction 1 as [|h hs W _ IH]; [reflexivity|]. cbn. rewrite word_as by exact W. exact IH. Qed.
Lemma spell_as o s : spell o = Some s -> forallb no_as_tok o = true.
Proof. revert s. induction o as [|[x a|c a|l a|d l a] o IH]; intros s0 H; try discriminate; [reflexivity|]. cbn [spell] in H. destruct (spell o) as [s'|]; [|discriminate]. exact (IH s' eq_refl). Qed.
Lemma all_as (p : tt -> bool) ts : (forall t, p t = true -> no_as_tok t = true) -> forallb p ts = true -> forallb no_as_tok ts = true.
Proof. intros L H. apply forallb_forall. intros t I. apply L. exact (proj1 (forallb_forall _ _) H t I). Qed.
Lemma pat_as pt : pat pt -> forallb no_as_tok pt = true.
Proof.
  intro P. apply (all_as pat_tok); [|destruct pt; [reflexivity|exact (proj2 P)]]. intros [x a| | | ]; try reflexivity. cbn [pat_tok no_as_tok existsb]. rewrite !orb_false_r. intro H. apply negb_true_iff in H.
  repeat (apply orb_false_iff in H; destruct H as [? H]). rewrite H. reflexivity.
Qed.
Lemma params_as ps : params ps -> forallb no_as_tok ps = true.
Proof. apply all_as. intros [ | | | ]; try reflexivity. auto. Qed.
Lemma inside_as ts : forall d, inside d ts = true -> forallb no_as_tok ts = true.
Proof.
  induction ts as [|[x a|c a|l a|dl l a] ts IH]; intros d H; [reflexivity| | |exact (IH d H)|exact (IH d H)]; cbn [inside] in H; cbn [forallb no_as_tok].
  - apply andb_true_iff in H. destruct H as [-> H]. exact (IH d H).
  - destruct (Ascii.eqb c "<"); [exact (IH _ H)|]. destruct (Ascii.eqb c ">"); [destruct d; [discriminate|exact (IH _ H)]|]. apply andb_true_iff in H. exact (IH _ (proj2 H)).
Qed.
Lemma generics_as ts : generics ts -> forallb no_as_tok ts = true.
Proof. apply inside_as. Qed.
Definition plain_text (e : expr) : Prop := forallb no_as_tok (etoks e) = true.
Lemma no_as cl : forall e, full cl e -> plain_text e.
Proof.
  apply (tree_mut cl plain_text plain_text plain_text plain_text plain_text (fun _ _ => True) (fun _ => True) (fun _ _ => True) (fun _ => True));
    intros; auto; unfold plain_text, fish in *; toks; rewrite ?name_toks, ?far_toks; cbn [app]; repeat (rewrite ?forallb_app; cbn [forallb no_as_tok]); rewrite ?word_as, ?root_as, ?first_as, ?hops_as by assumption;
    repeat match goal with H : forallb _ _ = true |- _ => rewrite H; clear H | H : spell _ = Some _ |- _ => rewrite (spell_as _ _ H); clear H | H : pat _ |- _ => rewrite (pat_as _ H); clear H | H : params _ |- _ => rewrite (params_as _ H); clear H | H : generics _ |- _ => rewrite (generics_as _ H); clear H end; reflexivity.
Qed.

Fixpoint alike_like t t' (H : alike t t') {struct H} : like t t'.
Proof.
  destruct H as [| | | |d ts ts' sp H]; try constructor; try reflexivity. revert ts ts' H. fix go 3. intros ts ts' H. destruct H; constructor; [apply alike_like; assumption|apply go; assumption].
Defined.
Fixpoint moved_like g E t t' (H : moved g E t t') {struct H} : like t t'.
Proof.
  destruct H as [| | |d ts ts' sp H| | | | |]; try constructor; try reflexivity. revert ts ts' H. fix go 3. intros ts ts' H. destruct H; constructor; [eapply moved_like; eassumption|apply go; assumption].
Defined.
Lemma likes_of (R : tt -> tt -> Prop) ts ts' : (forall t t', R t t' -> like t t') -> Forall2 R ts ts' -> Forall2 like ts ts'.
Proof. intros H. induction 1; constructor; auto. Qed.
(** paths that are printed alike *)
Lemma alike_hops hs hs' l l' : map h_id hs' = map h_id hs -> Forall2 alike (flat_map hop_toks hs ++ l) (flat_map hop_toks hs' ++ l') -> hs = hs'.
Proof.
  revert hs'. induction hs as [|[a b x sp] hs IH]; intros [|[a' b' x' sp'] hs'] E H; try discriminate; [reflexivity|]. injection E as -> E. cbn in H.
  repeat match goal with H : Forall2 alike (_ :: _) _ |- _ => inversion H; subst; clear H | H : alike (TIdent _ _) _ |- _ => inversion H; subst; clear H | H : alike (TPunct _ _) _ |- _ => inversion H; subst; clear H end.
  f_equal. apply IH; assumption.
Qed.
Lemma moved_hops g E hs hs' l l' : map h_id hs' = map h_id hs -> Forall2 (moved g E) (flat_map hop_toks hs ++ l) (flat_map hop_toks hs' ++ l') -> hs' = map (fun h => mk_hop (g (h_c1 h)) (g (h_c2 h)) (h_id h) (g (h_sp h))) hs.
Proof.
  revert hs'. induction hs as [|[a b x sp] hs IH]; intros [|[a' b' x' sp'] hs'] Eq H; try discriminate; [reflexivity|]. injection Eq as -> Eq. cbn in H.
  repeat match goal with H : Forall2 (moved g E) (_ :: _) _ |- _ => inversion H; subst; clear H | H : moved g E (TIdent _ _) _ |- _ => inversion H; subst; clear H | H : moved g E (TPunct _ _) _ |- _ => inversion H; subst; clear H end.
  cbn. f_equal. apply IH; assumption.
Qed.
Lemma alike_far x sp sp' hs hs' l l' : map h_id hs' = map h_id hs -> Forall2 alike (etoks (far x sp hs) ++ l) (etoks (far x sp' hs') ++ l') -> far x sp hs = far x sp' hs'.
Proof. rewrite !far_toks. cbn [app]. intros E H. inversion H as [|? ? ? ? A B]; subst. apply alike_hops in B; [|exact E]. inversion A. subst. reflexivity. Qed.
Lemma moved_far g E x sp sp' hs hs' l l' : map h_id hs' = map h_id hs -> Forall2 (moved g E) (etoks (far x sp hs) ++ l) (etoks (far x sp' hs') ++ l') ->
  mk_path false (mk_seg x [] sp' :: map hop_seg hs') = path_map g (mk_path false (mk_seg x [] sp :: map hop_seg hs)).
Proof.
  rewrite !far_toks. cbn [app]. intros Q H. inversion H as [|? ? ? ? A B]; subst. apply moved_hops in B; [|exact Q]. inversion A. subst. unfold path_map. cbn. rewrite !map_map. reflexivity.
Qed.
