(** Modules, impl blocks and traits of the small part of Rust.  *)
From Coq Require Import String Ascii Bool Arith Lia List.
From Verif Require Import Base Tokens Method Paths Context Flavor Attrs Syntax Render Walker RootAttr AttrSpec SiteSpec ProgSpec WalkSpec WalkFacts NodeSpec GrammarSpec MeaningSpec MeaningProofs RunSpec RunProofs SmallRust SmallRustProofs ClosedProofs SimpleSpec SimpleProofs SimpleWalkProofs ModuleSpec.
Import ListNotations.
Open Scope string_scope.
Open Scope list_scope.
Open Scope monad_scope.

Lemma mod_ind (P : item -> Prop) : (forall it, match it with IMod _ _ _ its => Forall P its | _ => True end -> P it) -> forall it, P it.
Proof.
  intros H. fix F 1. intros it. apply H. destruct it as [| | ? ? ? its| | | | |]; try exact I.
  exact ((fix go (l : list item) : Forall P l := match l with [] => Forall_nil P | x :: r => Forall_cons x (F x) (go r) end) its).
Qed.

(** * Alike items have alike functions *)
Section Alike.
  Variable R : expr -> expr -> Prop.
  Definition fn_alike (x y : sig * list stmt) : Prop :=
    fst x = fst y /\ map stmt_shape (snd x) = map stmt_shape (snd y) /\ Forall2 R (flat_map stmt_parts (snd x)) (flat_map stmt_parts (snd y)).
  Lemma list_alike {A} (sh : A -> A) (pa : A -> list expr) (fs : A -> list (sig * list stmt)) l :
    Forall (fun x => forall y, sh x = sh y -> Forall2 R (pa x) (pa y) -> Forall2 fn_alike (fs x) (fs y)) l ->
    (forall x y, sh x = sh y -> length (pa x) = length (pa y)) ->
    forall l', map sh l = map sh l' -> Forall2 R (flat_map pa l) (flat_map pa l') -> Forall2 fn_alike (flat_map fs l) (flat_map fs l').
  Proof.
    intros H L. induction H as [|x l Hx _ IH]; intros [|y l'] Hs Hp; try discriminate; [constructor|]. injection Hs as Hs Hl. cbn [flat_map] in *.
    destruct (Forall2_app_inv' R _ _ (L x y Hs) _ _ Hp) as [P1 P2]. apply Forall2_app; auto.
  Qed.
  Lemma alike_functions : forall it it', item_alike R it it' -> Forall2 fn_alike (functions it) (functions it').
  Proof.
    assert (L : forall x y, item_shape x = item_shape y -> length (item_parts x) = length (item_parts y)) by (destruct counts_all as (_ & _ & H & _); intros x y E; rewrite <- (H x), <- (H y), E; reflexivity).
    assert (Li : forall x y, impl_shape x = impl_shape y -> length (impl_parts x) = length (impl_parts y)) by (destruct counts_all as (_ & _ & _ & H & _); intros x y E; rewrite <- (H x), <- (H y), E; reflexivity).
    assert (Lt : forall x y, trait_shape x = trait_shape y -> length (trait_parts x) = length (trait_parts y)) by (destruct counts_all as (_ & _ & _ & _ & H & _); intros x y E; rewrite <- (H x), <- (H y), E; reflexivity).
    apply (mod_ind (fun it => forall it', item_alike R it it' -> Forall2 fn_alike (functions it) (functions it'))).
    intros it IH it' [Hs Hp]. destruct it, it'; try discriminate Hs; cbn [item_shape item_parts functions] in *; try constructor; try (injection Hs; intros; subst).
    - repeat split; assumption.
    - constructor.
    - eapply (list_alike impl_shape impl_parts); try eassumption. apply Forall_forall. intros x _ y Hx Hy. destruct x, y; try discriminate Hx; cbn in *; try constructor; try (injection Hx; intros; subst).
      + repeat split; assumption.
      + constructor.
    - eapply (list_alike item_shape item_parts); try eassumption. eapply Forall_impl; [|exact IH]. intros x Hx y S P. apply Hx. split; assumption.
    - eapply (list_alike trait_shape trait_parts); try eassumption. apply Forall_forall. intros x _ y Hx Hy. destruct x, y; try discriminate Hx; cbn in *; try constructor; try (injection Hx; intros; subst).
      + repeat split; assumption.
      + constructor.
  Qed.
End Alike.

(** * The walker *)
Section Walk.
  Variables (E : env) (fine : list (list attr) -> list attr -> Prop) (okc : list (list attr) -> ctx -> Prop) (K : bool -> expr -> expr -> Prop).
  Hypothesis Hparse : ev_parse E = rust_parse.
  Hypothesis Hnil : forall k, fine k [].
  Hypothesis Hattrs : forall k a c cnt, fine k a -> okc k c -> exists sk c', handle E a c cnt = Ok ((foreign a, sk, c'), cnt) /\ okc (push a k) c'.
  Hypothesis Hsub : forall k c, okc k c -> okc k (for_sub_scope c).
  Hypothesis Hfn : forall k c i, okc k c -> okc k (update_fn_info c i).
  Hypothesis Hrender : forall k c, okc k c -> renders (ev_str E) K c.

  (** what became of an item *)
  Inductive walked_impl : impl_item -> impl_item -> Prop :=
  | wi_fn : forall a vis s sp b b', gblock K b' -> walked_impl (IIFn a vis s sp b) (IIFn (foreign a) vis s sp b')
  | wi_const : forall a hd e e' semi, made K (full true) e' -> walked_impl (IIConst a hd e semi) (IIConst (foreign a) hd e' semi)
  | wi_other : forall a ts, foreign a = a -> walked_impl (IIOther a ts) (IIOther a ts).
  Inductive walked_trait : trait_item -> trait_item -> Prop :=
  | wt_fn : forall a s sp b b', gblock K b' -> walked_trait (TIFn a s sp b) (TIFn (foreign a) s sp b')
  | wt_const : forall a hd e e' semi, made K (full true) e' -> walked_trait (TIConst a hd e semi) (TIConst (foreign a) hd e' semi)
  | wt_other : forall a ts, foreign a = a -> walked_trait (TIOther a ts) (TIOther a ts).
  Inductive walked : item -> item -> Prop :=
  | wk_fn : forall a vis s sp b b', gblock K b' -> walked (IFn a vis s sp b) (IFn (foreign a) vis s sp b')
  | wk_const : forall a hd e e' semi, made K (full true) e' -> walked (IConst a hd e semi) (IConst (foreign a) hd e' semi)
  | wk_static : forall a hd e e' semi, made K (full true) e' -> walked (IStatic a hd e semi) (IStatic (foreign a) hd e' semi)
  | wk_impl : forall a hd sp its its', Forall2 walked_impl its its' -> walked (IImpl a hd sp its) (IImpl (foreign a) hd sp its')
  | wk_mod : forall a hd sp its its', Forall2 walked its its' -> walked (IMod a hd sp its) (IMod (foreign a) hd sp its')
  | wk_trait : forall a hd sp its its', Forall2 walked_trait its its' -> walked (ITrait a hd sp its) (ITrait (foreign a) hd sp its')
  | wk_other : forall a ts, foreign a = a -> walked (IOther a ts) (IOther a ts).

  Lemma fn_walks fr a s b c cnt : dead fr = false -> okc (kn fr) c -> body false (map stmt_bare b) -> hooks_of (flat_map stmt_subs b) = [] -> node_fine fine (here PNode fr a) ->
    Forall (node_fine fine) (last_map (stmt_nodes false (FScope :: FFn s :: FAttrs a :: fr)) (stmt_nodes true (FScope :: FFn s :: FAttrs a :: fr)) b) ->
    exists sk c1 b' cnt', handle E a c cnt = Ok ((foreign a, sk, c1), cnt) /\
      mapiM (fun j st => walk_stmt E (pos_kind FnBlockTail (List.length b) j) (for_sub_scope (update_fn_info c1 (FnInfo s))) st) 0 b cnt = Ok (b', cnt') /\ gblock K b'.
  Proof.
    intros D O [Hb Ht] N Fa Fb. apply fine_live in Fa. destruct Fa as [Fa _]. destruct (Hattrs _ a c cnt (Fa D) O) as (sk & c1 & Hh & O1).
    destruct (all_see fine) as (_ & _ & _ & _ & _ & _ & _ & _ & See). destruct (See _ Hb b _ eq_refl N Fb) as [L _]. specialize (L D).
    destruct (all_walk E fine okc K Hparse Hnil Hattrs Hsub Hfn Hrender) as (_ & _ & _ & _ & _ & _ & _ & _ & W).
    destruct (W _ Hb b _ FnBlockTail (for_sub_scope (update_fn_info c1 (FnInfo s))) cnt 0 eq_refl L eq_refl) as (b' & cnt' & Hb' & G); [apply Hsub, Hfn, O1|intros _; exact Ht|].
    exists sk, c1, b', cnt'. auto.
  Qed.
  Lemma const_walks fr a e c cnt : dead fr = false -> okc (kn fr) c -> full false (bare e) -> ClosedProofs.no_hooks e -> node_fine fine (here PNode fr a) -> Forall (node_fine fine) (nodes false (FAttrs a :: fr) e) ->
    exists sk c1 e' cnt', handle E a c cnt = Ok ((foreign a, sk, c1), cnt) /\ walk_expr E None c1 e cnt = Ok (e', cnt') /\ made K (full true) e'.
  Proof.
    intros D O Hb N Fa Fb. apply fine_live in Fa. destruct Fa as [Fa _]. destruct (Hattrs _ a c cnt (Fa D) O) as (sk & c1 & Hh & O1).
    destruct (all_see fine) as (_ & _ & _ & _ & See & _). destruct (See _ Hb e false _ eq_refl N Fb) as [L _]. specialize (L D).
    destruct (all_walk E fine okc K Hparse Hnil Hattrs Hsub Hfn Hrender) as (_ & _ & _ & _ & W & _).
    destruct (W _ Hb e _ c1 cnt eq_refl L O1) as (e' & cnt' & He & M & _). exists sk, c1, e', cnt'. auto.
  Qed.
  Ltac step Hh := rewrite (bind_ok _ _ _ _ _ Hh); cbn beta iota zeta.
  Lemma list_walks {A} (W : ctx -> A -> M A) (Q : A -> A -> Prop) (nodes : A -> list node) (su : A -> list expr) c l :
    Forall (fun x => hooks_of (su x) = [] -> Forall (node_fine fine) (nodes x) -> forall cnt, exists x' cnt', W c x cnt = Ok (x', cnt') /\ Q x x') l ->
    hooks_of (flat_map su l) = [] -> Forall (node_fine fine) (flat_map nodes l) -> forall cnt, exists l' cnt', mapM (W c) l cnt = Ok (l', cnt') /\ Forall2 Q l l'.
  Proof.
    induction 1 as [|x l Hx _ IH]; intros N F cnt; [exists [], cnt; split; [reflexivity|constructor]|]. cbn [flat_map] in N, F. rewrite ClosedProofs.hooks_app in N. apply app_eq_nil in N. destruct N as [N1 N2].
    apply Forall_app in F. destruct F as [F1 F2]. destruct (Hx N1 F1 cnt) as (x' & k & H1 & Q1). destruct (IH N2 F2 k) as (l' & k' & H2 & Q2). exists (x' :: l'), k'. split; [|constructor; assumption].
    cbn [mapM]. rewrite (bind_ok _ _ _ _ _ H1). change ((fix go (l0 : list A) : M (list A) := match l0 with [] => ret [] | x0 :: r => y <- W c x0; ys <- go r; ret (y :: ys) end) l) with (mapM (W c) l).
    erewrite bind_ok; [|exact H2]. reflexivity.
  Qed.
  Lemma impl_walks fr x c : dead fr = false -> okc (kn fr) c -> impl_of small_body small_value x -> hooks_of (impl_subs x) = [] -> Forall (node_fine fine) (impl_nodes fr x) ->
    forall cnt, exists x' cnt', walk_impl_item E c x cnt = Ok (x', cnt') /\ walked_impl x x'.
  Proof.
    intros D O Hs N F cnt. destruct Hs; cbn [impl_subs impl_nodes] in N, F; apply Forall_cons_iff in F; destruct F as [Fa F].
    - destruct (fn_walks fr a s b c cnt D O H N Fa F) as (sk & c1 & b' & k & Hh & Hb & G). do 2 eexists. split; [cbn [walk_impl_item]; step Hh; erewrite bind_ok; [|exact Hb]; reflexivity|constructor; exact G].
    - destruct (const_walks fr a e c cnt D O H N Fa F) as (sk & c1 & e' & k & Hh & He & G). do 2 eexists. split; [cbn [walk_impl_item]; step Hh; erewrite bind_ok; [|exact He]; reflexivity|constructor; exact G].
    - do 2 eexists. split; [reflexivity|]. constructor. exact Fa.
  Qed.
  Lemma trait_walks fr x c : dead fr = false -> okc (kn fr) c -> trait_of small_body small_value x -> hooks_of (trait_subs x) = [] -> Forall (node_fine fine) (trait_nodes fr x) ->
    forall cnt, exists x' cnt', walk_trait_item E c x cnt = Ok (x', cnt') /\ walked_trait x x'.
  Proof.
    intros D O Hs N F cnt. destruct Hs; cbn [trait_subs trait_nodes] in N, F; apply Forall_cons_iff in F; destruct F as [Fa F].
    - destruct (fn_walks fr a s b c cnt D O H N Fa F) as (sk & c1 & b' & k & Hh & Hb & G). do 2 eexists. split; [cbn [walk_trait_item]; step Hh; erewrite bind_ok; [|exact Hb]; reflexivity|constructor; exact G].
    - destruct (const_walks fr a e c cnt D O H N Fa F) as (sk & c1 & e' & k & Hh & He & G). do 2 eexists. split; [cbn [walk_trait_item]; step Hh; erewrite bind_ok; [|exact He]; reflexivity|constructor; exact G].
    - do 2 eexists. split; [reflexivity|]. constructor. exact Fa.
  Qed.
  Lemma item_walks : forall x fr c, dead fr = false -> okc (kn fr) c -> small_item x -> hooks_of (item_subs x) = [] -> Forall (node_fine fine) (item_nodes fr x) ->
    forall cnt, exists x' cnt', walk_item E c x cnt = Ok (x', cnt') /\ walked x x'.
  Proof.
    apply (mod_ind (fun x => forall fr c, dead fr = false -> okc (kn fr) c -> small_item x -> hooks_of (item_subs x) = [] -> Forall (node_fine fine) (item_nodes fr x) ->
      forall cnt, exists x' cnt', walk_item E c x cnt = Ok (x', cnt') /\ walked x x')).
    intros x IH fr c D O Hs N F cnt. destruct Hs; cbn [item_subs item_nodes] in N, F; apply Forall_cons_iff in F; destruct F as [Fa F].
    - destruct (fn_walks fr a s b c cnt D O H N Fa F) as (sk & c1 & b' & k & Hh & Hb & G). do 2 eexists. split; [cbn [walk_item]; step Hh; erewrite bind_ok; [|exact Hb]; reflexivity|constructor; exact G].
    - destruct (const_walks fr a e c cnt D O H N Fa F) as (sk & c1 & e' & k & Hh & He & G). do 2 eexists. split; [cbn [walk_item]; step Hh; erewrite bind_ok; [|exact He]; reflexivity|constructor; exact G].
    - destruct (const_walks fr a e c cnt D O H N Fa F) as (sk & c1 & e' & k & Hh & He & G). do 2 eexists. split; [cbn [walk_item]; step Hh; erewrite bind_ok; [|exact He]; reflexivity|constructor; exact G].
    - apply fine_live in Fa. destruct Fa as [Fa _]. destruct (Hattrs _ a c cnt (Fa D) O) as (sk & c1 & Hh & O1).
      destruct (list_walks (walk_impl_item E) walked_impl (impl_nodes (FAttrs a :: fr)) impl_subs c1 its) with (cnt := cnt) as (l' & k & Hl & Q); try assumption.
      { eapply Forall_impl; [|exact H]. intros y Hy Ny Fy. apply (impl_walks (FAttrs a :: fr)); assumption. }
      do 2 eexists. split; [cbn [walk_item]; step Hh; erewrite bind_ok; [|exact Hl]; reflexivity|constructor; exact Q].
    - apply fine_live in Fa. destruct Fa as [Fa _]. destruct (Hattrs _ a c cnt (Fa D) O) as (sk & c1 & Hh & O1).
      destruct (list_walks (walk_item E) walked (item_nodes (FAttrs a :: fr)) item_subs c1 its) with (cnt := cnt) as (l' & k & Hl & Q); try assumption.
      { apply Forall_forall. intros y Hin Ny Fy. rewrite Forall_forall in IH, H. apply (IH y Hin (FAttrs a :: fr)); try assumption. exact (H y Hin). }
      do 2 eexists. split; [cbn [walk_item]; step Hh; erewrite bind_ok; [|exact Hl]; reflexivity|constructor; exact Q].
    - apply fine_live in Fa. destruct Fa as [Fa _]. destruct (Hattrs _ a c cnt (Fa D) O) as (sk & c1 & Hh & O1).
      destruct (list_walks (walk_trait_item E) walked_trait (trait_nodes (FAttrs a :: fr)) trait_subs c1 its) with (cnt := cnt) as (l' & k & Hl & Q); try assumption.
      { eapply Forall_impl; [|exact H]. intros y Hy Ny Fy. apply (trait_walks (FAttrs a :: fr)); assumption. }
      do 2 eexists. split; [cbn [walk_item]; step Hh; erewrite bind_ok; [|exact Hl]; reflexivity|constructor; exact Q].
    - do 2 eexists. split; [reflexivity|]. constructor. exact Fa.
  Qed.

  (** what the output is like *)
  Definition output {A} (tk : A -> list tt) (su : A -> list expr) (ac : A -> A) (mo : A -> Prop) (x : A) : Prop := tk (ac x) = tk x /\ Forall (hook_ok K) (su x) /\ mo (ac x).
  Lemma body_output a b : gblock K b -> a ++ flat_map stoks (map stmt_actual b) = a ++ flat_map stoks b /\ Forall (hook_ok K) (flat_map stmt_subs b) /\ readable_body (map stmt_actual b).
  Proof.
    intros [P S]. destruct (good_block _ _ S) as [T H]. rewrite T. split; [reflexivity|]. split; [exact H|]. split; [exact P|]. intro sp. apply parse_iff. split; [apply f_oper, o_un, u_post, p_block, P|reflexivity].
  Qed.
  Lemma value_output e : made K (full true) e -> etoks (actual e) = etoks e /\ Forall (hook_ok K) (subs e) /\ readable_value (actual e).
  Proof. intros (P & T & H). split; [exact T|]. split; [exact H|]. split; [exact P|]. apply parse_iff. split; [exact P|reflexivity]. Qed.
  Lemma list_output {A} (Q : A -> A -> Prop) tk su ac mo l l' : Forall2 Q l l' -> (forall x y, In x l -> Q x y -> output tk su ac mo y) ->
    flat_map tk (map ac l') = flat_map tk l' /\ Forall (hook_ok K) (flat_map su l') /\ Forall mo (map ac l').
  Proof.
    intros H G. induction H as [|x y l l' Hx _ IH]; [repeat split; constructor|]. destruct IH as (I1 & I2 & I3); [intros; eapply G; [right|]; eassumption|]. destruct (G x y (or_introl eq_refl) Hx) as (G1 & G2 & G3). cbn. rewrite G1, I1.
    split; [reflexivity|]. split; [apply Forall_app; auto|constructor; assumption].
  Qed.
  Lemma impl_output x y : walked_impl x y -> output iitoks impl_subs impl_actual (impl_of readable_body readable_value) y.
  Proof.
    intros []; unfold output; cbn [iitoks impl_subs impl_actual].
    - destruct (body_output [] _ H) as (T & S & P). cbn in T. rewrite T. split; [reflexivity|]. split; [exact S|constructor; exact P].
    - destruct (value_output _ H) as (T & S & P). rewrite T. split; [reflexivity|]. split; [exact S|constructor; exact P].
    - repeat split; constructor.
  Qed.
  Lemma trait_output x y : walked_trait x y -> output titoks trait_subs trait_actual (trait_of readable_body readable_value) y.
  Proof.
    intros []; unfold output; cbn [titoks trait_subs trait_actual].
    - destruct (body_output [] _ H) as (T & S & P). cbn in T. rewrite T. split; [reflexivity|]. split; [exact S|constructor; exact P].
    - destruct (value_output _ H) as (T & S & P). rewrite T. split; [reflexivity|]. split; [exact S|constructor; exact P].
    - repeat split; constructor.
  Qed.
  Lemma item_output : forall x y, walked x y -> output itoks item_subs item_actual (made_of readable_body readable_value) y.
  Proof.
    apply (mod_ind (fun x => forall y, walked x y -> output itoks item_subs item_actual (made_of readable_body readable_value) y)).
    intros x IH y W. destruct W; unfold output; cbn [itoks item_subs item_actual].
    - destruct (body_output [] _ H) as (T & S & P). cbn in T. rewrite T. split; [reflexivity|]. split; [exact S|constructor; exact P].
    - destruct (value_output _ H) as (T & S & P). rewrite T. split; [reflexivity|]. split; [exact S|constructor; exact P].
    - destruct (value_output _ H) as (T & S & P). rewrite T. split; [reflexivity|]. split; [exact S|constructor; exact P].
    - destruct (list_output _ iitoks impl_subs impl_actual (impl_of readable_body readable_value) _ _ H) as (T & S & P); [intros u v _; apply impl_output|]. rewrite T. split; [reflexivity|]. split; [exact S|constructor; exact P].
    - destruct (list_output _ itoks item_subs item_actual (made_of readable_body readable_value) _ _ H) as (T & S & P); [intros u v Hu; exact (proj1 (Forall_forall _ _) IH u Hu v)|]. rewrite T. split; [reflexivity|]. split; [exact S|constructor; exact P].
    - destruct (list_output _ titoks trait_subs trait_actual (trait_of readable_body readable_value) _ _ H) as (T & S & P); [intros u v _; apply trait_output|]. rewrite T. split; [reflexivity|]. split; [exact S|constructor; exact P].
    - repeat split; constructor.
  Qed.
End Walk.
