(** On the small part of Rust a function is expanded whatever its hooq attributes set, if their methods can be called on every expression.  *)
From Coq Require Import String Ascii Bool Arith Lia List.
From Verif Require Import Base Tokens Method Paths Context Flavor Attrs Syntax Render Walker RootAttr FlavorSpec AttrSpec MapFacts AttrProofs SiteSpec ProgSpec WalkSpec NodeSpec GrammarSpec MeaningSpec MeaningProofs SmallRust SmallRustProofs SmallRustLaws ClosedProofs SimpleSpec.
Import ListNotations.
Open Scope string_scope.
Open Scope list_scope.
Open Scope monad_scope.

(** * What a template becomes *)
(** a method call, by its parts *)
Record wcall : Type := mk_wcall { wc_dot : span; wc_name : string; wc_at : span; wc_args : list expr; wc_commas : list tt; wc_sp : span }.
Definition on_call (e : expr) (w : wcall) : expr := EMethodCall [] e [TPunct "." (wc_dot w); TIdent (wc_name w) (wc_at w)] (wc_sp w) (wc_args w) (wc_commas w).
Definition wc_toks (w : wcall) : list tt := [TPunct "." (wc_dot w); TIdent (wc_name w) (wc_at w); TGroup Parenth (punctuated (map etoks (wc_args w)) (wc_commas w)) (wc_sp w)].
Definition wc_ok (w : wcall) : Prop := word (wc_name w) /\ args true (wc_args w) (wc_commas w).
Lemma calls_post ws : Forall wc_ok ws -> forall e, post true e -> post true (fold_left on_call ws e).
Proof. induction 1 as [|w ws [Hw Ha] _ IH]; intros e P; [exact P|]. cbn [fold_left]. apply IH, p_method; assumption. Qed.
Lemma calls_toks ws : forall e, etoks (fold_left on_call ws e) = etoks e ++ flat_map wc_toks ws.
Proof.
  induction ws as [|w ws IH]; intros e; cbn [fold_left flat_map]; [rewrite app_nil_r; reflexivity|]. rewrite IH. unfold on_call at 1. cbn [etoks]. unfold wc_toks. cbn [outer_toks filter map flat_map app]. rewrite <- !app_assoc. reflexivity.
Qed.

(** ** other spans at the top *)
Lemma like_self : forall t, like t t.
Proof. fix F 1. intros [s sp|c sp|l sp|d ts sp]; constructor; [reflexivity|]. induction ts; constructor; [apply F|assumption]. Qed.
Lemma respan_like q ts : Forall2 like ts (map (set_span q) ts).
Proof. induction ts as [|t l IH]; constructor; [|exact IH]. destruct t; constructor; [reflexivity|]. clear. induction ts; constructor; [apply like_self|assumption]. Qed.

Section Expand.
  Variables (var : string -> res (list tt)) (known : string -> Prop).
  Hypothesis Hknown : forall x, known x -> exists v, var x = Ok v.
  Variable tgt : expr.
  Hypothesis Htgt : post true tgt.
  Hypothesis Hexpr : var "expr" = Ok (etoks tgt).
  Hypothesis Hlit : forall x, In x literal_vars -> exists l, var x = Ok [TLit l call_site].
  Lemma ex_var a x b r : expand_with var (TPunct "$" a :: TIdent x b :: r) = bindR (var x) (fun v => bindR (expand_with var r) (fun r' => Ok (v ++ r'))).
  Proof. reflexivity. Qed.
  Lemma ex_punct c a r : c <> "$"%char -> expand_with var (TPunct c a :: r) = bindR (expand_with var r) (fun r' => Ok (TPunct c a :: r')).
  Proof. intro N. unfold expand_with. cbn. destruct (Ascii.eqb_spec c "$"); [contradiction|reflexivity]. Qed.
  Lemma ex_ident x a r : expand_with var (TIdent x a :: r) = bindR (expand_with var r) (fun r' => Ok (TIdent x a :: r')).
  Proof. reflexivity. Qed.
  Lemma ex_lit x a r : expand_with var (TLit x a :: r) = bindR (expand_with var r) (fun r' => Ok (TLit x a :: r')).
  Proof. reflexivity. Qed.
  Lemma ex_group d l a r : expand_with var (TGroup d l a :: r) = bindR (expand_with var l) (fun l' => bindR (expand_with var r) (fun r' => Ok (TGroup d l' call_site :: r'))).
  Proof. unfold expand_with. cbn. destruct (expand_loop (expand_group var) var false l); reflexivity. Qed.
  Lemma ex_hops hs r : expand_with var (flat_map hop_toks hs ++ r) = bindR (expand_with var r) (fun r' => Ok (flat_map hop_toks hs ++ r')).
  Proof.
    induction hs as [|h hs IH]; [cbn [flat_map app]; destruct (expand_with var r); reflexivity|]. cbn [flat_map hop_toks app]. rewrite !ex_punct, ex_ident, IH by discriminate. destruct (expand_with var r); reflexivity.
  Qed.
  Lemma filled_expands ts : filled known ts -> exists ts', expand_with var ts = Ok ts'.
  Proof.
    induction 1 as [|a x b r K _ [r' IH]|x a r _ [r' IH]|l a r _ [r' IH]|c a r N _ [r' IH]|d l a r _ [l' IHl] _ [r' IH]].
    - eexists. reflexivity.
    - destruct (Hknown x K) as [v Hv]. rewrite ex_var, Hv, IH. eexists. reflexivity.
    - rewrite ex_ident, IH. eexists. reflexivity.
    - rewrite ex_lit, IH. eexists. reflexivity.
    - rewrite ex_punct, IH by exact N. eexists. reflexivity.
    - rewrite ex_group, IHl, IH. eexists. reflexivity.
  Qed.
  Lemma arg_expands t : simple_arg known t -> exists e, full true e /\ forall r r', expand_with var r = Ok r' -> expand_with var (t ++ r) = Ok (etoks e ++ r').
  Proof.
    intros [l a|x a W|x a h hs W Hh|a x b I|a b|a b l c F|a x b c l d W F].
    - exists (ELit [] l a). split; [apply f_oper, o_un, u_post, p_lit|]. intros r r' H. cbn [app]. rewrite ex_lit, H. reflexivity.
    - exists (name x a). split; [apply f_oper, o_un, u_post, p_name, W|]. intros r r' H. cbn [app]. rewrite ex_ident, H. reflexivity.
    - exists (far x a (h :: hs)). split; [apply f_oper, o_un, u_post, p_far; assumption|]. intros r r' H. rewrite far_toks. cbn [app]. rewrite ex_ident, ex_hops, H. reflexivity.
    - destruct (Hlit x I) as [l Hl]. exists (ELit [] l call_site). split; [apply f_oper, o_un, u_post, p_lit|]. intros r r' H. cbn [app]. rewrite ex_var, Hl, H. reflexivity.
    - exists tgt. split; [apply f_oper, o_un, u_post, Htgt|]. intros r r' H. cbn [app]. rewrite ex_var, Hexpr, H. reflexivity.
    - destruct (filled_expands l F) as [l' Hl]. exists (EClosure [] [TPunct "|" a; TPunct "|" b] RetNone (EVerbatim [TGroup Brace l' call_site])). split; [apply f_closure; reflexivity|].
      intros r r' H. cbn [app]. rewrite !ex_punct, ex_group, Hl, H by discriminate. reflexivity.
    - destruct (filled_expands l F) as [l' Hl]. exists (EClosure [] [TPunct "|" a; TIdent x b; TPunct "|" c] RetNone (EVerbatim [TGroup Brace l' call_site])). split; [apply f_closure_1; auto|].
      intros r r' H. cbn [app]. rewrite ex_punct, ex_ident, ex_punct, ex_group, Hl, H by discriminate. reflexivity.
  Qed.
  Lemma args_expand ts : simple_args known ts -> exists es cs, args true es cs /\ expand_with var ts = Ok (punctuated (map etoks es) cs).
  Proof.
    induction 1 as [|t H|t a r H _ (es & cs & A & IH)].
    - exists [], []. split; [constructor|reflexivity].
    - destruct (arg_expands t H) as (e & F & X). exists [e], []. split; [constructor; exact F|]. specialize (X [] [] eq_refl). rewrite app_nil_r in X. exact X.
    - destruct (arg_expands t H) as (e & F & X). exists (e :: es), (TPunct "," a :: cs). split; [constructor; assumption|]. cbn [map punctuated]. apply X. rewrite ex_punct, IH by discriminate. reflexivity.
  Qed.
  (** tokens that, after a dot, are calls *)
  Definition as_calls (q : span) (ts : list tt) : Prop := forall dot, exists ws, Forall wc_ok ws /\ TPunct "." dot :: map (set_span q) ts = flat_map wc_toks ws.
  Lemma as_more q a b c : as_calls q a -> as_calls q b -> as_calls q (a ++ TPunct "." c :: b).
  Proof.
    intros A B dot. destruct (A dot) as (wa & Fa & Ta). destruct (B q) as (wb & Fb & Tb). exists (wa ++ wb). split; [apply Forall_app; auto|]. rewrite flat_map_app, <- Ta, <- Tb, map_app. reflexivity.
  Qed.
  Variables (over : bool) (q : span).
  Hypothesis Hover : over = true -> forall x, In x ["sofar"; "so_far"] -> exists ts, var x = Ok ts /\ as_calls q ts.
  Lemma calls_expand ts : simple_calls known over ts -> exists ts', as_calls q ts' /\ forall r r', expand_with var r = Ok r' -> expand_with var (ts ++ r) = Ok (ts' ++ r').
  Proof.
    assert (L : forall m a es cs, word m -> args true es cs -> as_calls q [TIdent m a; TGroup Parenth (punctuated (map etoks es) cs) call_site]).
    { intros m a es cs W A dot. exists [mk_wcall dot m q es cs q]. split; [repeat constructor; assumption|reflexivity]. }
    induction 1 as [m a ts b W A|m a ts b c t W A _ (t' & D & IH)|a x b O I|a x b c t O I _ (t' & D & IH)]; try destruct (args_expand ts A) as (es & cs & A' & X).
    - exists [TIdent m a; TGroup Parenth (punctuated (map etoks es) cs) call_site]. split; [apply L; assumption|]. intros r r' H. cbn [app]. rewrite ex_ident, ex_group, X, H. reflexivity.
    - exists ([TIdent m a; TGroup Parenth (punctuated (map etoks es) cs) call_site] ++ TPunct "." c :: t'). split; [apply as_more; [apply L; assumption|exact D]|].
      intros r r' H. cbn [app]. rewrite ex_ident, ex_group, X, ex_punct, (IH _ _ H) by discriminate. reflexivity.
    - destruct (Hover O x I) as (sf & V & S). exists sf. split; [exact S|]. intros r r' H. cbn [app]. rewrite ex_var, V, H. reflexivity.
    - destruct (Hover O x I) as (sf & V & S). exists (sf ++ TPunct "." c :: t'). split; [apply as_more; assumption|].
      intros r r' H. cbn [app]. rewrite ex_var, V, ex_punct, (IH _ _ H) by discriminate. rewrite <- app_assoc. reflexivity.
  Qed.
  (** tokens that are a whole expression *)
  Definition as_whole (ts : list tt) : Prop := exists e, post true e /\ etoks e = map (set_span q) ts /\ (starts_block (etoks e) = true -> starts_block (etoks tgt) = true).
  Lemma whole_expands ts : over = false -> simple_whole known ts -> exists ts', as_whole ts' /\ forall r r', expand_with var r = Ok r' -> expand_with var (ts ++ r) = Ok (ts' ++ r').
  Proof.
    intros Of. induction 1 as [a b|f a ts b W A|f a h hs ts b W Hh A|t a r _ (t' & (e & Pe & Te & Se) & X) S].
    - exists (etoks tgt). split; [|intros r r' H; cbn [app]; rewrite ex_var, Hexpr, H; reflexivity].
      pose proof (respan_like q (etoks tgt)) as L.
      destruct (proj1 (all_copy true) tgt Htgt _ L) as (e' & P' & T' & _ & _ & _ & S'). exists e'. split; [exact P'|]. split; [exact T'|]. congruence.
    - destruct (args_expand ts A) as (es & cs & A' & X). exists [TIdent f a; TGroup Parenth (punctuated (map etoks es) cs) call_site]. split; [|intros r r' H; cbn [app]; rewrite ex_ident, ex_group, X, H; reflexivity].
      exists (ECall [] (name f q) q es cs). split; [apply p_call; assumption|]. split; [reflexivity|]. intros S. exfalso. change (starts_block ([TIdent f q] ++ [TGroup Parenth (punctuated (map etoks es) cs) q]) = true) in S.
      cbn [app] in S. rewrite root_starts in S by (left; exact W). discriminate S.
    - destruct (args_expand ts A) as (es & cs & A' & X). exists (TIdent f a :: flat_map hop_toks (h :: hs) ++ [TGroup Parenth (punctuated (map etoks es) cs) call_site]).
      split; [|intros r r' H; cbn [app]; rewrite <- app_assoc, ex_ident, ex_hops; cbn [app]; rewrite ex_group, X, H; cbn [bindR app]; rewrite <- app_assoc; reflexivity].
      assert (T : forall l, map (set_span q) (flat_map hop_toks l) = flat_map hop_toks (map (fun h => mk_hop q q (h_id h) q) l)) by (induction l as [|y l IH]; [reflexivity|]; cbn; rewrite IH; reflexivity).
      exists (ECall [] (far f q (map (fun h => mk_hop q q (h_id h) q) (h :: hs))) q es cs). split; [apply p_call_far; [exact W| |exact A']|].
      + unfold hops in *. rewrite <- (Forall_map h_id) in *. change (Forall word (map h_id (map (fun h => mk_hop q q (h_id h) q) (h :: hs)))). rewrite map_map. exact Hh.
      + split; [cbn [etoks]; rewrite far_toks, outer_nil; cbn [map app set_span]; f_equal; rewrite (map_app (set_span q)), T; reflexivity|]. intros S. exfalso. cbn [etoks] in S. rewrite far_toks, outer_nil in S. cbn [app] in S. rewrite first_starts in S by exact W. discriminate S.
    - rewrite <- Of in S. destruct (calls_expand r S) as (r' & D & Y). exists (t' ++ TPunct "." a :: r'). split.
      + destruct (D q) as (ws & F & T). exists (fold_left on_call ws e). split; [apply calls_post; assumption|]. split; [rewrite calls_toks, Te, map_app, <- T; reflexivity|].
        rewrite calls_toks, starts_app by (eapply un_nonempty, u_post, Pe). exact Se.
      + intros s s' H. rewrite <- !app_assoc. apply X. cbn [app]. rewrite ex_punct by discriminate.
        rewrite (Y _ _ H). reflexivity.
  Qed.
End Expand.

(** * Contexts *)
Lemma not_so_far x : ~ In x ["sofar"; "so_far"] -> metavar_of x <> Some MVSoFar.
Proof.
  intro N. unfold metavar_of. repeat match goal with |- context [if String.eqb ?a ?b then _ else _] => destruct (String.eqb_spec a b); try discriminate | |- context [if String.eqb ?a ?b || String.eqb ?c ?d then _ else _] => destruct (String.eqb_spec a b); destruct (String.eqb_spec c d); cbn [orb]; try discriminate end.
  all: exfalso; apply N; subst; cbn; tauto.
Qed.
Definition has (c : ctx) (x : string) : Prop := In x plain_vars \/ get_binding c x <> None /\ ~ In x ["sofar"; "so_far"].
Section Vars.
  Variables (str : list tt -> string) (c : ctx) (k : kind) (n : nat) (src ets : list tt) (q : span) (sf : res (list tt)).
  Let var := meta_var_toks str c k n src ets q sf.
  Lemma has_value x : has c x -> exists v, var x = Ok v.
  Proof.
    intros [I|[B N]].
    - unfold plain_vars, literal_vars in I. cbn [app In] in I. repeat (destruct I as [<-|I]; [eexists; reflexivity|]). destruct I.
    - pose proof (not_so_far x N) as S. subst var. unfold meta_var_toks. destruct (metavar_of x) as [[]|]; try (eexists; reflexivity); [congruence|]. destruct (get_binding c x); [eexists; reflexivity|congruence].
  Qed.
  Lemma literal_value x : In x literal_vars -> exists l, var x = Ok [TLit l call_site].
  Proof. intro I. unfold literal_vars in I. cbn [In] in I. repeat (destruct I as [<-|I]; [eexists; reflexivity|]). destruct I. Qed.
End Vars.
(** the method of a context turns [t], whatever it is, into a tree of the same class *)
Definition renders (str : list tt -> string) (K : bool -> expr -> expr -> Prop) (c : ctx) : Prop :=
  forall k n src t q, post true t -> exists r, post true r /\ render_toks str c k n src (etoks t) q = Ok (etoks r) /\ (starts_block (etoks r) = true -> starts_block (etoks t) = true) /\ K (m_exc (fval (cx_method c))) t r.
Lemma on_calls_post ws t : Forall wc_ok ws -> post true t -> post true (fold_left on_call ws t) /\ (starts_block (etoks (fold_left on_call ws t)) = true -> starts_block (etoks t) = true).
Proof. intros W P. split; [apply calls_post; assumption|]. rewrite calls_toks, starts_app by (eapply un_nonempty, u_post, P). auto. Qed.
Lemma simple_renders str (K : bool -> expr -> expr -> Prop) c b : (forall x t r, K x t r) -> simple_method (has c) b (fval (cx_method c)) -> renders str K c.
Proof.
  intros HK S k n src t q Pt. unfold render_toks. destruct (cx_method c) as [m anc]. cbn [fval expand_method] in *.
  set (sf := match anc with Some a => _ | None => _ end). pose proof (has_value str c k n src (etoks t) q sf) as Hv. pose proof (literal_value str c k n src (etoks t) q sf) as Hl. set (var := meta_var_toks str c k n src (etoks t) q sf) in *.
  destruct m as [dot ts exc|ts exc]; cbn [m_template simple_method] in *.
  - destruct (calls_expand var (has c) Hv t Pt eq_refl Hl false q (fun H => False_ind _ (Bool.diff_false_true H)) ts S) as (ts' & D & X). specialize (X [] [] eq_refl). rewrite !app_nil_r in X. rewrite X. cbn [bindR].
    destruct (D dot) as (ws & F & T). exists (fold_left on_call ws t). destruct (on_calls_post ws t F Pt) as [P' S']. split; [exact P'|]. split; [rewrite calls_toks, T; reflexivity|]. split; [exact S'|apply HK].
  - destruct (whole_expands var (has c) Hv t Pt eq_refl Hl false q (fun H => False_ind _ (Bool.diff_false_true H)) ts eq_refl S) as (ts' & (r & Pr & Tr & Sr) & X). specialize (X [] [] eq_refl). rewrite !app_nil_r in X. rewrite X. cbn [bindR].
    exists r. split; [exact Pr|]. split; [rewrite Tr; reflexivity|]. split; [exact Sr|apply HK].
Qed.
(** one call, of one of [ms], with a closure; the [?] stays *)
Definition one_call (ms : list string) (exc : bool) (t r : expr) : Prop := exc = false /\ exists w f, r = on_call t w /\ In (wc_name w) ms /\ wc_args w = [f] /\ wc_commas w = [] /\ is_closure f.
Lemma observing_toks nm str c k n src ets q : word nm -> observing (has c) nm (fval (cx_method c)) ->
  exists w f, wc_ok w /\ wc_name w = nm /\ wc_args w = [f] /\ wc_commas w = [] /\ is_closure f /\ render_toks str c k n src ets q = Ok (ets ++ flat_map wc_toks [w]).
Proof.
  intros W (dot & a & b & t & M & S). unfold render_toks. destruct (cx_method c) as [m anc]. cbn [fval] in *. subst m. cbn [expand_method m_template].
  set (sf := match anc with Some a => _ | None => _ end). set (var := meta_var_toks str c k n src ets q sf).
  assert (X : exists f, full true f /\ is_closure f /\ expand_with var t = Ok (etoks f)).
  { destruct S as [(p & r & l & s & -> & F)|(p & x & s & r & l & u & -> & Wx & F)]; destruct (filled_expands var (has c) (has_value str c k n src ets q sf) l F) as [l' Hl].
    - exists (EClosure [] [TPunct "|" p; TPunct "|" r] RetNone (EVerbatim [TGroup Brace l' call_site])). split; [apply f_closure; reflexivity|]. split; [exact I|]. rewrite !ex_punct, ex_group, Hl by discriminate. reflexivity.
    - exists (EClosure [] [TPunct "|" p; TIdent x s; TPunct "|" r] RetNone (EVerbatim [TGroup Brace l' call_site])). split; [apply f_closure_1; auto|]. split; [exact I|]. rewrite ex_punct, ex_ident, ex_punct, ex_group, Hl by discriminate. reflexivity. }
  destruct X as (f & F & C & X). exists (mk_wcall dot nm q [f] [] q), f. split; [split; [exact W|apply a_last, F]|]. split; [reflexivity|]. split; [reflexivity|]. split; [reflexivity|]. split; [exact C|].
  rewrite ex_ident, ex_group, X. cbn [bindR expand_with expand_loop map set_span flat_map wc_toks wc_dot wc_name wc_at wc_args wc_commas wc_sp punctuated app]. rewrite app_nil_r. reflexivity.
Qed.
Lemma observing_renders ms str c b : Forall word ms -> observer_of (has c) ms b (fval (cx_method c)) -> renders str (one_call ms) c.
Proof.
  intros Hw (nm & I & O) k n src t q Pt. destruct (observing_toks nm str c k n src (etoks t) q (proj1 (Forall_forall _ _) Hw nm I) O) as (w & g & Ow & N & A & C & Cl & R).
  assert (F : Forall wc_ok [w]) by (constructor; [exact Ow|constructor]). destruct (on_calls_post [w] t F Pt) as [P' S']. exists (on_call t w). split; [exact P'|]. split; [rewrite R; exact (f_equal Ok (eq_sym (calls_toks [w] t)))|]. split; [exact S'|].
  split; [|exists w, g; subst nm; auto]. destruct O as (dot & x & y & t0 & -> & _). reflexivity.
Qed.
Lemma filled_mono (P Q : string -> Prop) ts : (forall x, P x -> Q x) -> filled P ts -> filled Q ts.
Proof. intros PQ. induction 1; constructor; auto. Qed.
Section Mono.
  Variables (P Q : string -> Prop).
  Hypothesis PQ : forall x, P x -> Q x.
  Lemma args_mono t : simple_args P t -> simple_args Q t.
  Proof.
    assert (A : forall t, simple_arg P t -> simple_arg Q t) by (intros t' []; constructor; auto; eapply filled_mono; eassumption).
    induction 1; [constructor|apply sg_last; auto|apply sg_more; auto].
  Qed.
  Lemma calls_mono b t : simple_calls P b t -> simple_calls Q b t.
  Proof. induction 1; [apply sc_last|apply sc_more|apply sc_so_far|apply sc_so_far_more]; auto using args_mono. Qed.
  Lemma whole_mono t : simple_whole P t -> simple_whole Q t.
  Proof. induction 1; [apply sw_expr|apply sw_call|apply sw_call_path|apply sw_more]; auto using args_mono, calls_mono. Qed.
End Mono.
Lemma simple_mono (P Q : string -> Prop) b m : (forall x, P x -> Q x) -> simple_method P b m -> simple_method Q b m.
Proof. intros PQ. destruct m; cbn [simple_method]; [apply calls_mono|apply whole_mono]; exact PQ. Qed.
Lemma stacked_mono (P Q : string -> Prop) b m : (forall x, P x -> Q x) -> stacked_method P b m -> stacked_method Q b m.
Proof. intros PQ. destruct m; cbn [stacked_method]; [apply calls_mono, PQ|auto]. Qed.
Lemma observing_mono (P Q : string -> Prop) nm m : (forall x, P x -> Q x) -> observing P nm m -> observing Q nm m.
Proof.
  intros PQ (dot & a & b & t & -> & H). exists dot, a, b, t. split; [reflexivity|].
  destruct H as [(p & q & l & r & -> & F)|(p & x & s & q & l & r & -> & W & F)]; [left; do 4 eexists|right; do 6 eexists]; (split; [reflexivity|]); try split; auto; eapply filled_mono; eassumption.
Qed.

Lemma last_some_in {A} (l : list (option A)) x : last_some l = Some x -> In (Some x) l.
Proof.
  induction l as [|y l IH]; [discriminate|]. cbn [last_some]. destruct (last_some l) as [z|].
  - intro H. right. apply IH. exact H.
  - intro H. left. exact H.
Qed.
(** attributes around a place; none are nothing *)
Definition push (a : list attr) (k : list (list attr)) : list (list attr) := match a with [] => k | _ => a :: k end.
Fixpoint kn (fr : list frame) : list (list attr) := match fr with [] => [] | FAttrs a :: r => push a (kn r) | _ :: r => kn r end.
(** all methods of a chain; only the lowest has none below *)
Fixpoint fits (fit : (string -> Prop) -> bool -> method -> Prop) (vs : string -> Prop) (f : field method) : Prop :=
  match f with Field m None => fit vs false m | Field m (Some a) => (exists b, fit vs b m) /\ fits fit vs a end.
Lemma fits_top fit vs f : fits fit vs f -> exists b, fit vs b (fval f).
Proof. destruct f as [m [a|]]; [intros [H _]; exact H|exists false; assumption]. Qed.
Lemma stacked_expands str c k n src t q : post true t -> forall f, fits stacked_method (has c) f -> exists ts, expand_method str c k n src (etoks t) q f = Ok ts /\ as_calls q ts /\ exists dot ts0 exc, fval f = Insert dot ts0 exc.
Proof.
  intro Pt. fix F 1. intros [m anc] H. cbn [expand_method fval].
  set (sf := match anc with Some a => _ | None => _ end).
  assert (X : exists b, stacked_method (has c) b m /\ (b = true -> forall x, In x ["sofar"; "so_far"] -> exists ts, meta_var_toks str c k n src (etoks t) q sf x = Ok ts /\ as_calls q ts)).
  { destruct anc as [a|].
    - destruct H as [[b Hb] Ha]. exists b. split; [exact Hb|]. intros _. destruct (F a Ha) as (ts & E & A & _). intros x I. exists ts. split; [|exact A]. rewrite <- E. cbn [In] in I. destruct I as [<-|[<-|[]]]; reflexivity.
    - exists false. split; [exact H|discriminate]. }
  clear H. destruct X as (b & S & O). destruct m as [dot ts exc|ts exc]; cbn [stacked_method m_template] in *; [|destruct S].
  destruct (calls_expand _ (has c) (has_value str c k n src (etoks t) q sf) t Pt eq_refl (literal_value str c k n src (etoks t) q sf) b q O ts S) as (ts' & D & X). specialize (X [] [] eq_refl). rewrite !app_nil_r in X.
  exists ts'. split; [exact X|]. split; [exact D|]. exists dot, ts, exc. reflexivity.
Qed.
Lemma stacked_renders str (K : bool -> expr -> expr -> Prop) c : (forall x t r, K x t r) -> fits stacked_method (has c) (cx_method c) -> renders str K c.
Proof.
  intros HK S k n src t q Pt. unfold render_toks. destruct (stacked_expands str c k n src t q Pt _ S) as (ts & -> & D & dot & ts0 & exc & ->). cbn [bindR]. destruct (D dot) as (ws & F & T). exists (fold_left on_call ws t).
  destruct (on_calls_post ws t F Pt) as [P' S']. split; [exact P'|]. split; [rewrite calls_toks, T; reflexivity|]. split; [exact S'|apply HK].
Qed.
Section Ok.
  Variables (fit : (string -> Prop) -> bool -> method -> Prop) (base : fcore) (env : attr_env).
  Hypothesis fit_mono : forall (P Q : string -> Prop) b m, (forall x, P x -> Q x) -> fit P b m -> fit Q b m.
  Lemma fits_mono (P Q : string -> Prop) : (forall x, P x -> Q x) -> forall f, fits fit P f -> fits fit Q f.
  Proof. intro PQ. fix F 1. intros [m [a|]]; cbn [fits]; [intros [[b H] Ha]; split; [exists b; eapply fit_mono; eassumption|apply F, Ha]|apply fit_mono, PQ]. Qed.
  (** [k]: the attributes of what encloses the place *)
  Definition vars (k : list (list attr)) (x : string) : Prop := own_vars base x \/ exists a, In a k /\ binds_at env a x.
  Definition ok (k : list (list attr)) (c : ctx) : Prop := (forall x, vars k x -> has c x) /\ fits fit (has c) (cx_method c).
  Lemma new_has f x : own_vars f x -> has (ctx_new f) x.
  Proof.
    intros [P|[B N]]; [left; exact P|]. right. split; [|exact N]. unfold get_binding. cbn.
    clear -B. induction (fl_bindings f) as [|[y v] l IH]; [destruct B|]. cbn [mget map fst In] in *. destruct (String.eqb_spec x y); [discriminate|]. apply IH. destruct B; [congruence|assumption].
  Qed.
  Lemma ok_new : own_method fit base -> ok [] (ctx_new base).
  Proof. intro H. split; [intros x [V|(a & [] & _)]; exact (new_has base x V)|]. cbn. eapply fit_mono; [|exact H]. exact (new_has base). Qed.
  Lemma keeps_bindings c i x : get_binding c x <> None -> get_binding (updated_by_inert_attr c i) x <> None.
  Proof.
    unfold get_binding, updated_by_inert_attr. cbn [cx_bindings]. unfold merged_from_parent, from_parent. destruct (in_bindings i) as [|y l]; [auto|]. cbn [fval]. rewrite mget_mextend. destruct (last_get x (y :: l)); [discriminate|auto].
  Qed.
  Lemma gets_bindings c i x : mget x (in_bindings i) <> None -> get_binding (updated_by_inert_attr c i) x <> None.
  Proof.
    unfold get_binding, updated_by_inert_attr. cbn [cx_bindings]. unfold merged_from_parent, from_parent. destruct (in_bindings i) as [|y l]; [intro H; contradiction|]. cbn [fval]. rewrite mget_mextend. intro H.
    destruct (last_get x (y :: l)) eqn:Q; [discriminate|]. exfalso. apply H. apply last_get_none in Q. clear -Q. induction (y :: l) as [|[z v] r IH]; [reflexivity|]. cbn [mget map fst In] in *. destruct (String.eqb_spec x z); [exfalso; apply Q; left; congruence|]. apply IH. tauto.
  Qed.
  Lemma keeps_has c i x : has c x -> has (updated_by_inert_attr c i) x.
  Proof. intros [P|[B N]]; [left; exact P|right; split; [apply keeps_bindings, B|exact N]]. Qed.
  Lemma ok_update k c a es : ok k c -> node_events env a es -> Forall (allowed fit (vars (push a k))) es -> ok (push a k) (updated_by_inert_attr c (apply_events es inert0)).
  Proof.
    intros [Oh O] Hn A. set (i := apply_events es inert0).
    assert (V : forall x, vars (push a k) x -> has (updated_by_inert_attr c i) x).
    { intros x [V|(a1 & I & B)]; [apply keeps_has, Oh; left; exact V|]. assert (C : In a1 k \/ a1 = a) by (unfold push in I; destruct a; [left; exact I|destruct I; [right; congruence|left; assumption]]).
      destruct C as [C| ->]; [apply keeps_has, Oh; right; exists a1; auto|]. destruct B as (es1 & H1 & B & N). right. split; [|exact N]. apply gets_bindings.
      assert (Q : apply_events es1 inert0 = i) by (pose proof (loop_complete _ _ _ H1 inert0); pose proof (loop_complete _ _ _ Hn inert0); unfold i; congruence).
      rewrite <- Q, bindings_step. destruct (last_get x (flat_map ev_binds es1)) eqn:L; [discriminate|]. exfalso. apply last_get_none in L. exact (L B). }
    split; [exact V|]. assert (M : in_method i = last_of ev_method es) by apply (sb_method _ _ (apply_set es)).
    pose proof (fits_mono (has c) (has (updated_by_inert_attr c i)) (keeps_has c i) _ O) as O'. cbn [updated_by_inert_attr cx_method]. rewrite M. destruct (last_of ev_method es) as [m|] eqn:L; cbn [from_parent]; [|exact O'].
    cbn [fits]. split; [|exact O'].
    unfold last_of in L. apply last_some_in, in_map_iff in L. destruct L as (e & Em & Ie). pose proof (proj1 (Forall_forall _ _) A e Ie) as Ae. destruct e; try discriminate; injection Em as Em; subst m; cbn [allowed] in Ae.
    - exists true. eapply fit_mono; [exact V|exact Ae].
    - exists false. eapply fit_mono; [exact V|exact Ae].
  Qed.
  (** the attributes [a] can be read below [k] *)
  Definition can_read (k : list (list attr)) (a : list attr) : Prop := exists es, node_events env a es /\ Forall (allowed fit (vars (push a k))) es.
  Lemma ok_handle E k a c cnt : ev_attr E = env -> can_read k a -> ok k c -> exists sk c', handle E a c cnt = Ok ((foreign a, sk, c'), cnt) /\ ok (push a k) c'.
  Proof.
    intros HE (es & H & A) O. unfold handle, lift, handle_inert_attrs, extract. rewrite HE, (loop_complete _ _ _ H). do 2 eexists. split; [reflexivity|]. apply ok_update; assumption.
  Qed.
  (** the attributes of the frames *)
  Lemma vars_node n x : vars_at base env n x -> vars (push (n_attrs n) (kn (n_frames n))) x.
  Proof.
    intros [V|(a & I & B)]; [left; exact V|]. right. exists a. split; [|exact B]. assert (Ne : a <> []) by (intros ->; destruct B as (es & H & B & _); inversion H; subst; destruct B).
    assert (P : forall b k, a = b \/ In a k -> In a (push b k)) by (intros b k [J|J]; unfold push; destruct b; try congruence; [left; congruence|right; exact J]).
    apply P. destruct I as [->|I]; [left; reflexivity|right]. induction (n_frames n) as [|f fr IH]; [destruct I|]. destruct I as [->|I]; [cbn [kn]; apply P; left; reflexivity|]. destruct f; cbn [kn]; auto.
  Qed.
  Lemma allowed_mono (P Q : string -> Prop) e : (forall x, P x -> Q x) -> allowed fit P e -> allowed fit Q e.
  Proof. intros PQ. destruct e; cbn [allowed]; auto; apply fit_mono; exact PQ. Qed.
  Lemma node_read n : (exists es, node_events env (n_attrs n) es /\ Forall (allowed fit (vars_at base env n)) es) -> can_read (kn (n_frames n)) (n_attrs n).
  Proof. intros (es & H & A). exists es. split; [exact H|]. eapply Forall_impl; [|exact A]. intros e. apply allowed_mono, vars_node. Qed.
End Ok.
