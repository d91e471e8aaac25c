(** Properties of attribute lists and macro calls: C18, C22, C23.

    [item_nodes] (NodeSpec.v) lists every attribute list of a program with the nodes around it and, for a macro call, the call;
    [spot it out n n'] says that [n] is such a node of the source and [n'] the same node of the output. *)
From Coq Require Import String Ascii Bool Arith Lia List.
From Verif Require Import Base Tokens Method Paths Context Flavor Attrs Syntax Render Walker EvalList RootAttr AttrSpec SiteSpec ProgSpec SettingSpec SettingProofs WalkSpec NodeSpec NodeProofs EvalSpec EvalProofs Properties_Attrs WalkExamples.
Import ListNotations.
Open Scope string_scope.
Open Scope list_scope.

Definition is_hooq (a : attr) : Prop := hooq_path (meta_path (at_meta a)) = true.
(** every node of the source is in the output, in the same order, and no other *)
Theorem C18_nodes E f it out : expands E f it out -> source it ->
  length (item_nodes [] out) = length (item_nodes [] it) /\ forall n n', spot it out n n' -> n_place n' = n_place n.
Proof.
  intros H Hs. split; [symmetry; exact (forall2_len _ _ _ (expands_notes E f it out H Hs))|]. intros n n' Hn. exact (noted_place E f n n' (spot_noted E f it out n n' H Hs Hn)).
Qed.
Print Assumptions C18_nodes.
(** Full statement: no hooq attribute in any node of the output.  False (see [C18_refuted]); this theorem says exactly which ones stay: those on the
    places that are not handled, and those in parts of the program that are not entered. *)
Theorem C18_removed_partial E f it out n' a : expands E f it out -> source it -> In n' (item_nodes [] out) -> In a (n_attrs n') -> is_hooq a ->
  exists n, spot it out n n' /\ n_attrs n' = n_attrs n /\ (n_place n <> PNode \/ unreached (ev_attr E) f (n_frames n)).
Proof.
  intros H Hs Hi Ha Hq. destruct (spot_onto E f it out n' H Hs Hi) as (n & Hn). exists n. split; [exact Hn|].
  destruct (noted_cases E f n n' (spot_noted E f it out n n' H Hs Hn)) as [(_ & tr & _ & _ & He)|[(Hp & He & _)|(Hu & He & _)]]; [|auto..].
  exfalso. rewrite He in Ha. apply filter_In in Ha. destruct Ha as [_ Ha]. unfold is_hooq in Hq. rewrite Hq in Ha. discriminate.
Qed.
Print Assumptions C18_removed_partial.
(** the attributes of other tools stay on every node, and in order *)
Theorem C18_others E f it out n n' : expands E f it out -> source it -> spot it out n n' ->
  (n_place n = PNode -> forall tr, trail (ev_attr E) (n_frames n) tr -> reached f tr = true -> n_attrs n' = foreign (n_attrs n)) /\
  (n_place n <> PNode -> n_attrs n' = n_attrs n) /\ (unreached (ev_attr E) f (n_frames n) -> n_attrs n' = n_attrs n) /\
  foreign (n_attrs n') = foreign (n_attrs n).
Proof.
  intros H Hs Hn. destruct (noted_cases E f n n' (spot_noted E f it out n n' H Hs Hn)) as [(Hp & tr & Ht & Hr & He)|[(Hp & He & _)|(Hu & He & _)]].
  - repeat split; [auto|congruence| |rewrite He; apply WalkFacts.foreign_idem]. intros Hu. exfalso. pose proof (unreached_not E f _ _ Hu Ht). congruence.
  - repeat split; [congruence|auto|auto|now rewrite He].
  - repeat split; [|auto|auto|now rewrite He]. intros _ tr Ht Hr. pose proof (unreached_not E f _ _ Hu Ht). congruence.
Qed.
Print Assumptions C18_others.

(** [#[hooq::skip]] in each place where it stays *)
Definition x_left (p : place) : item :=
  match p with
  | PLeaf => x_fn [] "f" RetNone [semi (x_call "a" [EPath [skip_] (xa_path ["x"])])]
  | PLet => x_fn [] "f" RetNone [SLocal [skip_] [qi "let"; qi "x"] [qp ";"]]
  | PArm => x_fn [] "f" RetNone [semi (EMatch [] [qi "match"] (x_name "x") call_site [Arm [skip_] [qp "_"] [] None [qp "="; qp ">"] (x_call "b" []) []])]
  | POther => IMod [] [qi "mod"; qi "m"] call_site [IOther [skip_] [qi "struct"; qi "S"; qp ";"]]
  | PRules => IMod [] [qi "mod"; qi "m"] call_site [IMacro [skip_] (Some "r") (Mac (xa_path ["macro_rules"]) Brace call_site [] None) []]
  | _ => x_fn [] "f" RetNone [semi (EAssign [] (EIndex [skip_] (x_name "x") call_site (x_name "y")) [qp "="] (x_name "z"))]
  end.
Definition left_nodes (p : place) : list node := filter (fun n => match n_attrs n with [] => false | _ => true end) (item_nodes [] (out_of x_env x_core (x_left p))).
Definition left_node (p : place) : node := hd (here PNode [] []) (left_nodes p).
Lemma left_in p : length (left_nodes p) = 1 -> In (left_node p) (item_nodes [] (out_of x_env x_core (x_left p))).
Proof.
  intros H. assert (Hi : In (left_node p) (left_nodes p)) by (unfold left_node; destruct (left_nodes p); [discriminate|left; reflexivity]).
  apply filter_In in Hi. apply Hi.
Qed.
Theorem C18_refuted : forall p, exists E f it out n' a, expands E f it out /\ source it /\ In n' (item_nodes [] out) /\ In a (n_attrs n') /\ is_hooq a /\
  (n_place n' = p \/ (p = PFile /\ n_place n' = PNode /\ In FDead (n_frames n')) \/ (p = PNode /\ n_place n' = PNode /\ In FDead (n_frames n'))).
Proof.
  intros p. exists x_env, x_core, (x_left p), (out_of x_env x_core (x_left p)), (left_node p), skip_.
  destruct p; (split; [eexists; vm_compute; reflexivity|]; split; [reflexivity|]; split; [apply left_in; reflexivity|]; split; [left; reflexivity|]; split; [reflexivity|]).
  1: right; right; split; [reflexivity|split; [reflexivity|left; reflexivity]].
  6: right; left; split; [reflexivity|split; [reflexivity|left; reflexivity]].
  all: left; reflexivity.
Qed.
Print Assumptions C18_refuted.
(** no hooq attribute of [x_main] stays; it has two *)
Example C18_ex : existsb (fun n => existsb (fun a => hooq_path (meta_path (at_meta a))) (n_attrs n)) (item_nodes [] x_out) = false /\
  length (filter (fun n => existsb (fun a => hooq_path (meta_path (at_meta a))) (n_attrs n)) (item_nodes [] x_main)) = 2 /\ length (item_nodes [] x_main) = 36.
Proof. vm_compute. auto. Qed.

(** * C22: macro calls that are left alone *)
(** the arguments of the macro calls of a program were read by the loop of walk_macro.rs with the parsers [ps] *)
Definition views (ps : parsers) (it : item) : Prop :=
  forall n p d sp ts v, In n (item_nodes [] it) -> n_mac n = Some (Mac p d sp ts v) -> parse_list ps (length ts) ts = Some v.
Theorem C22_off E f it out n n' tr : expands E f it out -> source it -> spot it out n n' ->
  trail (ev_attr E) (n_inside n) tr -> the_macros f tr = false -> n_mac n' = n_mac n.
Proof.
  intros H Hs Hn Ht Hf. pose proof (spot_noted E f it out n n' H Hs Hn) as Hx. destruct (n_mac n) as [m|] eqn:Em.
  - destruct (noted_mac E f n n' m Hx Em) as [Hm|(m' & p & d & sp & ts & l & l' & tr' & _ & _ & _ & _ & Ht' & _ & Hm & _)]; [exact Hm|].
    rewrite (trail_unique E _ _ _ Ht' Ht) in Hm. congruence.
  - inversion Hx; subst; cbn [n_mac here] in *; congruence.
Qed.
Print Assumptions C22_off.
Theorem C22_opaque E f ps it out n n' p d sp ts v : expands E f it out -> source it -> spot it out n n' -> views ps it -> shrinking ps ->
  n_mac n = Some (Mac p d sp ts v) -> ~ (exists l, listed ps ts l) -> n_mac n' = n_mac n.
Proof.
  intros H Hs Hn Hv Hsh Hm Hl. pose proof (spot_noted E f it out n n' H Hs Hn) as Hx.
  destruct (noted_mac E f n n' _ Hx Hm) as [Hm'|(m' & p1 & d1 & sp1 & ts1 & l & l' & tr' & _ & He & _)]; [congruence|]. exfalso. apply Hl.
  inversion He; subst. exists l. eapply parse_listed, Hv; [|exact Hm]. destruct Hn as (i & Hi & _). eapply nth_error_In, Hi.
Qed.
Print Assumptions C22_opaque.
(** and those in parts that are not entered, [macro_rules] included *)
Theorem C22_unreached E f it out n n' : expands E f it out -> source it -> spot it out n n' ->
  unreached (ev_attr E) f (n_frames n) \/ n_place n = PRules -> n_mac n' = n_mac n.
Proof.
  intros H Hs Hn Hu. destruct (noted_cases E f n n' (spot_noted E f it out n n' H Hs Hn)) as [(Hp & tr & Ht & Hr & He)|[(Hp & _ & He)|(_ & _ & He)]]; [|exact He..].
  exfalso. destruct Hu as [Hu|Hu]; [pose proof (unreached_not E f _ _ Hu Ht); congruence|congruence].
Qed.
Print Assumptions C22_unreached.
(** the loop ends and reads exactly the lists of EvalSpec.v *)
Theorem C22_loop ps ts : shrinking ps -> exists v, parse_list ps (length ts) ts = Some v /\ (forall l, listed ps ts l <-> v = Some l).
Proof.
  intros Hs. destruct (parse_list ps (length ts) ts) as [v|] eqn:E; [|exfalso; exact (parse_ends ps Hs (length ts) ts (le_n _) E)].
  exists v. split; [reflexivity|]. intros l. split.
  - intros Hl. pose proof (listed_parse ps ts l Hl Hs (length ts) (le_n _)). congruence.
  - intros ->. eapply parse_listed, E.
Qed.
Print Assumptions C22_loop.

(** * C23: the arguments of a macro call that is entered *)
(** Full statement: without [Forall no_inner l].  Missing: inner attributes at the start of the arguments, see [C23_refuted].  [ev_bare] undoes hooks and
    drops hooq attributes (ProgSpec.v).  *)
Theorem C23_conserved_partial E f ps it out n n' p d sp ts v : expands E f it out -> source it -> spot it out n n' -> views ps it -> printing ps ->
  n_mac n = Some (Mac p d sp ts v) -> n_mac n' <> n_mac n ->
  exists l l', n_mac n' = Some (Mac p d sp (flat_map vtoks l') (Some l')) /\ listed ps ts l /\ map ev_bare l' = map ev_bare l /\
    (Forall no_inner l -> ts = flat_map vtoks l).
Proof.
  intros H Hs Hn Hv Hpr Hm Hne. pose proof (spot_noted E f it out n n' H Hs Hn) as Hx.
  destruct (noted_mac E f n n' _ Hx Hm) as [Hm'|(m' & p1 & d1 & sp1 & ts1 & l & l' & tr' & Hm' & He & Hme & Hb & _)]; [congruence|].
  inversion He; subst p1 d1 sp1 ts1 v. exists l, l'. split; [congruence|].
  assert (Hl : listed ps ts l). { eapply parse_listed, Hv; [|exact Hm]. destruct Hn as (i & Hi & _). eapply nth_error_In, Hi. }
  split; [exact Hl|]. split; [exact Hb|]. intros Hno. rewrite (listed_read ps ts l Hl Hpr). clear -Hno.
  induction Hno as [|x l Hx Hl IH]; [reflexivity|]. cbn [flat_map]. rewrite IH. f_equal. destruct x; try reflexivity. cbn [read_toks no_inner] in *. rewrite Hx. reflexivity.
Qed.
Print Assumptions C23_conserved_partial.
(** every token that was read belongs to one of the pieces, in order *)
Theorem C23_pieces ps ts l : listed ps ts l -> printing ps -> ts = flat_map read_toks l.
Proof. exact (listed_read ps ts l). Qed.
Print Assumptions C23_pieces.

(** parsers for the examples: a file [#![i]] and expressions [a()?] *)
Definition nowhere (sp : span) : bool := String.eqb (sp_file sp) "" && Nat.eqb (sp_line sp) 0 && Nat.eqb (sp_col sp) 0.
Definition x_inner (s : string) (sp : span) : attr := mk_attr true call_site (MPath (mk_path false [mk_seg s [] sp])).
Definition x_ps : parsers := mk_parsers
  (fun ts => match ts with
             | [TPunct "#" s1; TPunct "!" s2; TGroup Bracket [TIdent s sp] s3] =>
                 if nowhere s1 && nowhere s2 && nowhere s3 then Some (([x_inner s sp], []), []) else None
             | _ => None
             end)
  (fun _ => None)
  (fun ts => match ts with
             | TIdent s s1 :: TGroup Parenth [] s2 :: TPunct "?" s3 :: r => Some (ETry [] (ECall [] (EPath [] (mk_path false [mk_seg s [] s1])) s2 [] []) s3, r)
             | _ => None
             end)
  (fun _ => None).
Lemma nowhere_iff sp : nowhere sp = true -> sp = call_site.
Proof.
  destruct sp as [a b c]. unfold nowhere. cbn. rewrite !andb_true_iff, String.eqb_eq, !Nat.eqb_eq. intros [[-> ->] ->]. reflexivity.
Qed.
Ltac t_parse H := repeat match type of H with match ?x with _ => _ end = _ => destruct x eqn:?; try discriminate H end.
Example x_printing : printing x_ps /\ shrinking x_ps.
Proof.
  unfold printing, shrinking, x_ps. cbn [ps_file ps_item ps_expr ps_stmt]. repeat split; try discriminate.
  - intros ts fa its rest H. t_parse H. inversion H; subst.
    match goal with H : _ && _ = true |- _ => rewrite !andb_true_iff in H; destruct H as [[H1 H2] H3] end.
    apply nowhere_iff in H1, H2, H3. subst. reflexivity.
  - intros ts e rest H. t_parse H. inversion H; subst. reflexivity.
  - intros ts x rest H. t_parse H. inversion H; subst. cbn. lia.
  - intros ts e rest H. t_parse H. inversion H; subst. cbn. lia.
Qed.
(** fn f() { m!(#![i]); n!(a()?, b()?); #[hooq::hook_in_macros(false)] n!(a()?); n!(a b); } *)
Definition x_macs : item :=
  x_fn [] "f" RetNone
    [Syntax.SMacro [] (Mac (xa_path ["m"]) Parenth call_site (inner_toks [x_inner "i" call_site]) (Some [VFile [x_inner "i" call_site] [] []])) [qp ";"];
     Syntax.SMacro [] (x_mac "n" [VExpr (x_try (x_call "a" [])) [qp ","]; VExpr (x_try (x_call "b" [])) []]) [qp ";"];
     Syntax.SMacro [xa (MList (xa_path ["hooq"; "hook_in_macros"]) Parenth [TIdent "false" call_site] call_site)] (x_mac "n" [VExpr (x_try (x_call "a" [])) []]) [qp ";"];
     Syntax.SMacro [] (Mac (xa_path ["n"]) Parenth call_site [qi "a"; qi "b"] None) [qp ";"]].
Definition x_macs_out : item := Eval vm_compute in out_of x_env x_core x_macs.
Example x_views : expands x_env x_core x_macs x_macs_out /\ source x_macs /\ views x_ps x_macs.
Proof.
  split; [eexists; vm_compute; reflexivity|]. split; [reflexivity|]. intros n p d sp ts v Hi Hm. vm_compute in Hi.
  repeat destruct Hi as [Hi|Hi]; try contradiction; subst n; try discriminate; inversion Hm; subst; reflexivity.
Qed.
(** the arguments of [m!] are gone *)
Theorem C23_refuted : exists E f ps it out n n' p d sp ts v, expands E f it out /\ source it /\ spot it out n n' /\ views ps it /\ printing ps /\ shrinking ps /\
  n_mac n = Some (Mac p d sp ts v) /\ (forall a, In a (n_attrs n) -> ~ is_hooq a) /\ ts <> [] /\ n_mac n' = Some (Mac p d sp [] (Some [VFile [x_inner "i" call_site] [] []])).
Proof.
  exists x_env, x_core, x_ps, x_macs, x_macs_out. destruct x_views as (H1 & H2 & H3). destruct x_printing as (H4 & H5).
  do 7 eexists. split; [exact H1|]. split; [exact H2|]. split; [exists 1; split; reflexivity|]. split; [exact H3|]. split; [exact H4|]. split; [exact H5|].
  split; [reflexivity|]. split; [intros a []|]. split; [discriminate|reflexivity].
Qed.
Print Assumptions C23_refuted.
(** the second macro call is entered, with two pieces; the third and fourth are left alone *)
Example C23_ex : exists n n', spot x_macs x_macs_out n n' /\ n_mac n' <> n_mac n /\
  listed x_ps (flat_map vtoks [VExpr (x_try (x_call "a" [])) [qp ","]; VExpr (x_try (x_call "b" [])) []]) [VExpr (x_try (x_call "a" [])) [qp ","]; VExpr (x_try (x_call "b" [])) []].
Proof.
  do 2 eexists. split; [exists 3; split; reflexivity|]. split; [discriminate|]. eapply parse_listed with (fuel := 5). reflexivity.
Qed.
Example C22_ex_off : exists n n' tr m, spot x_macs x_macs_out n n' /\ n_mac n = Some m /\ trail (ev_attr x_env) (n_inside n) tr /\ the_macros x_core tr = false.
Proof.
  do 4 eexists. split; [exists 10; split; reflexivity|]. split; [reflexivity|]. split; [unfold n_inside; cbn [n_attrs n_frames]; t_trail|]. reflexivity.
Qed.
Example C22_ex_opaque : exists n n' p d sp ts v, spot x_macs x_macs_out n n' /\ n_mac n = Some (Mac p d sp ts v) /\ ~ (exists l, listed x_ps ts l).
Proof.
  do 7 eexists. split; [exists 14; split; reflexivity|]. split; [reflexivity|]. intros (l & Hl). apply listed_parse with (fuel := 2) in Hl; [|apply x_printing|cbn; lia]. discriminate.
Qed.
