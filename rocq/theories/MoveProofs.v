(** Moving a program moves its expansion.  *)
From Coq Require Import String Ascii Bool Arith Lia List.
From Verif Require Import Base Tokens Method Paths Context Flavor Attrs Syntax SyntaxInd Render Walker RootAttr RenderSpec RenderProofs RenderVarProofs WalkFacts AlikeSpec AlikeProofs TomlStore MapFacts FlavorSpec FlavorNameProofs FlavorTomlProofs FlavorStoreProofs MoveSpec.
Import ListNotations.
Open Scope string_scope.
Open Scope list_scope.
Open Scope monad_scope.

#[local] Arguments toks_map : simpl never.
#[local] Arguments path_map : simpl never.
#[local] Arguments values_map : simpl never.
#[local] Arguments sig_map : simpl never.
#[local] Arguments ctx_map : simpl never.
#[local] Arguments attr_map : simpl never.
#[local] Arguments set_span : simpl never.

(** * Moving nothing *)
Definition stay (x : span) : span := x.
#[local] Arguments stay : simpl never.
Lemma tok_stay t : tok_map stay t = t.
Proof. induction t as [s p|c p|l p|d ts p IH] using tt_ind'; try reflexivity. cbn [tok_map]. f_equal. induction IH; cbn [map]; [reflexivity|]. congruence. Qed.
Lemma toks_stay ts : toks_map stay ts = ts.
Proof. unfold toks_map. induction ts; cbn [map]; [reflexivity|]. rewrite tok_stay. congruence. Qed.
Lemma map_same {A} (f : A -> A) l : (forall x, f x = x) -> map f l = l.
Proof. intros H. induction l; cbn [map]; [reflexivity|]. rewrite H. congruence. Qed.
Lemma path_stay p : path_map stay p = p.
Proof. destruct p as [l s]. unfold path_map. cbn. f_equal. apply map_same. intros [i a [q [[c d]|]]]; cbn; rewrite toks_stay; reflexivity. Qed.
Lemma attr_stay a : attr_map stay a = a.
Proof.
  destruct a as [i q [p|p d ts sp|p v]]; unfold attr_map; cbn; rewrite path_stay, ?toks_stay; try reflexivity. destruct v; cbn; rewrite ?path_stay, ?toks_stay; reflexivity.
Qed.
Lemma attrs_stay l : map (attr_map stay) l = l.
Proof. apply map_same, attr_stay. Qed.
Lemma ret_stay r : ret_map stay r = r.
Proof. destruct r; cbn; rewrite ?path_stay; reflexivity. Qed.
Lemma sig_stay s : sig_map stay s = s.
Proof. destruct s; unfold sig_map; cbn. rewrite ret_stay, toks_stay. reflexivity. Qed.
Lemma over_same {T} (f : T -> T) : (forall x, f x = x) -> forall x, over f x = x.
Proof. intros H. fix IH 1. intros [v [a|]]; cbn [over option_map]; rewrite H; [rewrite IH|]; reflexivity. Qed.
Lemma method_stay m : method_map stay m = m.
Proof. destruct m; cbn; rewrite toks_stay; reflexivity. Qed.
Lemma values_stay b : values_map stay b = b.
Proof. apply map_same. intros [k v]. cbn. rewrite toks_stay. reflexivity. Qed.
Lemma info_stay i : info_map stay i = i.
Proof. destruct i; cbn; rewrite ?sig_stay, ?ret_stay, ?toks_stay; reflexivity. Qed.
Lemma ctx_stay c : ctx_map stay c = c.
Proof.
  destruct c; unfold ctx_map; cbn. rewrite (over_same _ method_stay), (over_same _ values_stay), (over_same (option_map (info_map stay))); [reflexivity|].
  intros [i|]; cbn; rewrite ?info_stay; reflexivity.
Qed.
Lemma hook_stay h : hook_map stay h = h.
Proof.
  destruct h as [k n q s c o]; unfold hook_map; cbn. rewrite ctx_stay, toks_stay. destruct o as [[a sp]|]; cbn; [|reflexivity]. rewrite attrs_stay. reflexivity.
Qed.

Section Moves.
  Variable g : span -> span.
  Hypothesis Hg : g call_site = call_site.

  (** * Moved texts *)
  Lemma toks_app a b : toks_map g (a ++ b) = toks_map g a ++ toks_map g b.
  Proof. apply map_app. Qed.
  Lemma toks_cons t ts : toks_map g (t :: ts) = tok_map g t :: toks_map g ts.
  Proof. reflexivity. Qed.
  Lemma toks_nil : toks_map g [] = [].
  Proof. reflexivity. Qed.
  Lemma group_map d ts sp : tok_map g (TGroup d ts sp) = TGroup d (toks_map g ts) (g sp).
  Proof. reflexivity. Qed.
  Lemma toks_flat {A} (f : A -> list tt) l : toks_map g (flat_map f l) = flat_map (fun x => toks_map g (f x)) l.
  Proof. induction l; cbn [flat_map]; [reflexivity|]. rewrite toks_app. congruence. Qed.
  Lemma qi_map s : tok_map g (qi s) = qi s.
  Proof. unfold qi. cbn. rewrite Hg. reflexivity. Qed.
  Lemma qp_map s : tok_map g (qp s) = qp s.
  Proof. unfold qp. cbn. rewrite Hg. reflexivity. Qed.
  Lemma qs_map s : tok_map g (qs s) = qs s.
  Proof. unfold qs. cbn. rewrite Hg. reflexivity. Qed.
  Lemma qcc_map : toks_map g qcc = qcc.
  Proof. unfold qcc, toks_map. cbn [map]. rewrite qp_map. reflexivity. Qed.
  Lemma qpath_map l : toks_map g (qpath l) = qpath l.
  Proof. induction l as [|s l IH]; [reflexivity|]. cbn [qpath]. rewrite toks_app, qcc_map. f_equal. unfold toks_map in *. cbn [map]. rewrite qi_map. congruence. Qed.
  Lemma path_toks_map p : path_toks (path_map g p) = toks_map g (path_toks p).
  Proof.
    assert (C : forall x, colons (mk_seg (seg_id x) (toks_map g (seg_args x)) (mk_seg_at (g (sg_ident (seg_sp x))) (option_map (fun c => (g (fst c), g (snd c))) (sg_colons (seg_sp x))))) = toks_map g (colons x)).
    { intros [i t [sp [[c d]|]]]; [reflexivity|]. cbn [colons sg_colons seg_sp option_map]. symmetry. apply qcc_map. }
    destruct p as [l [|x s]]; unfold path_toks, path_map; cbn [p_lead p_segs map]; [destruct l; [rewrite qcc_map|]; reflexivity|].
    rewrite !toks_app, C. f_equal; [destruct l; reflexivity|]. f_equal.
    induction s as [|y s IH]; [reflexivity|]. cbn [map flat_map]. rewrite !toks_app, C, IH. reflexivity.
  Qed.
  Lemma value_toks_map v : mvalue_toks (value_map g v) = toks_map g (mvalue_toks v).
  Proof. destruct v; cbn [value_map mvalue_toks]; [apply path_toks_map|reflexivity|reflexivity]. Qed.
  Lemma meta_toks_map m : meta_toks (meta_map g m) = toks_map g (meta_toks m).
  Proof.
    destruct m; cbn [meta_map meta_toks]; rewrite ?toks_app, path_toks_map; [reflexivity|reflexivity|]. f_equal. rewrite value_toks_map. unfold toks_map. cbn [map]. rewrite qp_map. reflexivity.
  Qed.
  Lemma attr_toks_map a : attr_toks (attr_map g a) = toks_map g (attr_toks a).
  Proof. destruct a as [i q m]. unfold attr_toks, attr_map. cbn [at_inner at_sp at_meta]. rewrite meta_toks_map. destruct i; reflexivity. Qed.
  Lemma outer_map l : outer_toks (map (attr_map g) l) = toks_map g (outer_toks l).
  Proof.
    unfold outer_toks. induction l as [|a l IH]; [reflexivity|]. cbn [map filter]. destruct a as [i q m] eqn:Ea. rewrite <- Ea. replace (at_inner (attr_map g a)) with (at_inner a) by reflexivity.
    destruct (negb (at_inner a)); [|exact IH]. cbn [flat_map]. rewrite toks_app, IH, attr_toks_map. reflexivity.
  Qed.
  Lemma inner_map l : inner_toks (map (attr_map g) l) = toks_map g (inner_toks l).
  Proof.
    unfold inner_toks. induction l as [|a l IH]; [reflexivity|]. cbn [map filter]. replace (at_inner (attr_map g a)) with (at_inner a) by reflexivity.
    destruct (at_inner a); [|exact IH]. cbn [flat_map]. rewrite toks_app, IH, attr_toks_map. reflexivity.
  Qed.
  Lemma punct_map {A} (f f' : A -> list tt) (h : A -> A) l : Forall (fun x => f' (h x) = toks_map g (f x)) l ->
    forall cs, punctuated (map f' (map h l)) (toks_map g cs) = toks_map g (punctuated (map f l) cs).
  Proof.
    induction 1 as [|x l Hx Hl IH]; intros cs; [reflexivity|]. cbn [map punctuated]. rewrite toks_app, Hx. f_equal. destruct cs as [|t cs]; [exact (IH [])|]. rewrite !toks_cons. f_equal. apply IH.
  Qed.
  Lemma flat_map_map {A} (f : A -> list tt) (h : A -> A) l : Forall (fun x => f (h x) = toks_map g (f x)) l -> flat_map f (map h l) = toks_map g (flat_map f l).
  Proof. induction 1 as [|x l Hx Hl IH]; [reflexivity|]. cbn [map flat_map]. rewrite toks_app. congruence. Qed.
  Lemma opt_map {A} (f : A -> list tt) (h : A -> A) o : optP (fun x => f (h x) = toks_map g (f x)) o -> opt_toks f (option_map h o) = toks_map g (opt_toks f o).
  Proof. destruct o; cbn; intros H; [exact H|reflexivity]. Qed.
  Lemma start_map ts : ts_span (toks_map g ts) = g (ts_span ts).
  Proof. destruct ts as [|[]]; [symmetry; exact Hg|reflexivity..]. Qed.

  Local Notation em := (expr_map g true).
  Ltac pcbn := cbn [expr_map stmt_map item_map impl_map trait_map arm_map field_map mac_map ev_map etoks stoks itoks iitoks titoks armtoks fieldtoks mtoks vtoks sg_toks sig_map];
    try fold (expr_map g true); try fold (stmt_map g true); try fold (item_map g true); try fold (impl_map g true); try fold (trait_map g true); try fold (arm_map g true);
    try fold (field_map g true); try fold (mac_map g true); try fold (ev_map g true);
    try fold etoks; try fold stoks; try fold itoks; try fold iitoks; try fold titoks; try fold armtoks; try fold fieldtoks.
  Ltac pfin := rewrite ?outer_map, ?inner_map, ?path_toks_map, ?toks_app, ?toks_cons, ?toks_nil, ?group_map, ?toks_app, ?toks_cons, ?toks_nil, ?qp_map, ?qi_map;
    repeat match goal with
    | H : Forall _ ?l |- context[punctuated (map _ (map _ ?l)) _] => rewrite (punct_map _ _ _ l H)
    | H : Forall _ ?l |- context[flat_map _ (map _ ?l)] => rewrite (flat_map_map _ _ l H)
    | H : optP _ ?o |- context[opt_toks _ (option_map _ ?o)] => rewrite (opt_map _ _ o H)
    | H : _ = toks_map g _ |- _ => rewrite H; clear H
    end; try reflexivity.
  Lemma map_two {A} (h1 h2 h3 : A -> A) l : Forall (fun x => h1 (h2 x) = h3 x) l -> map h1 (map h2 l) = map h3 l.
  Proof. induction 1; cbn [map]; congruence. Qed.
  Lemma opt_two {A} (h1 h2 h3 : A -> A) o : optP (fun x => h1 (h2 x) = h3 x) o -> option_map h1 (option_map h2 o) = option_map h3 o.
  Proof. destruct o; cbn; congruence. Qed.
  Ltac fcbn := cbn [expr_map stmt_map item_map impl_map trait_map arm_map field_map mac_map ev_map].
  Ltac ffin := rewrite ?attrs_stay, ?toks_stay, ?path_stay, ?sig_stay, ?ret_stay, ?hook_stay;
    repeat match goal with
    | H : Forall _ ?l |- context[map _ (map _ ?l)] => rewrite (map_two _ _ _ l H)
    | H : optP _ ?o |- context[option_map _ (option_map _ ?o)] => rewrite (opt_two _ _ _ o H)
    | H : _ = expr_map g false _ |- _ => rewrite H; clear H
    | H : _ = stmt_map g false _ |- _ => rewrite H; clear H
    | H : _ = item_map g false _ |- _ => rewrite H; clear H
    | H : _ = mac_map g false _ |- _ => rewrite H; clear H
    end; try reflexivity.
  Lemma printed :
    (forall e, etoks (expr_map g true e) = toks_map g (etoks e)) /\ (forall s, stoks (stmt_map g true s) = toks_map g (stoks s)) /\
    (forall i, itoks (item_map g true i) = toks_map g (itoks i)) /\ (forall i, iitoks (impl_map g true i) = toks_map g (iitoks i)) /\
    (forall i, titoks (trait_map g true i) = toks_map g (titoks i)) /\ (forall r, armtoks (arm_map g true r) = toks_map g (armtoks r)) /\
    (forall f, fieldtoks (field_map g true f) = toks_map g (fieldtoks f)) /\ (forall m, mtoks (mac_map g true m) = toks_map g (mtoks m)) /\
    (forall v, vtoks (ev_map g true v) = toks_map g (vtoks v)).
  Proof.
    apply syntax_ind2; intros.
    all: try solve [pcbn; pfin].
    - pcbn. rewrite H, toks_app. destruct semi; reflexivity.
    - pcbn. rewrite outer_map, !toks_app. f_equal. f_equal. destruct m as [p d sp ts view]. destruct name as [n|]; [|rewrite <- H; destruct view; reflexivity].
      destruct view; cbn [mac_map]; rewrite toks_app, path_toks_map, !toks_cons, group_map, qp_map, qi_map; reflexivity.
    - pcbn. rewrite outer_map, !toks_app. f_equal. f_equal. destruct colon; [reflexivity|]. rewrite toks_app, H. reflexivity.
    - destruct view; pcbn; rewrite path_toks_map, toks_app, !toks_cons, group_map, qp_map; reflexivity.
  Qed.
  Lemma toks_two ts : toks_map stay (toks_map g ts) = toks_map g ts.
  Proof. apply toks_stay. Qed.

  (** moving and then forgetting the texts is moving without the texts *)
  Local Notation fm := (expr_map stay false).
  Lemma forgets :
    (forall e, expr_map stay false (expr_map g true e) = expr_map g false e) /\ (forall s, stmt_map stay false (stmt_map g true s) = stmt_map g false s) /\
    (forall i, item_map stay false (item_map g true i) = item_map g false i) /\ (forall i, impl_map stay false (impl_map g true i) = impl_map g false i) /\
    (forall i, trait_map stay false (trait_map g true i) = trait_map g false i) /\ (forall r, arm_map stay false (arm_map g true r) = arm_map g false r) /\
    (forall f, field_map stay false (field_map g true f) = field_map g false f) /\ (forall m, mac_map stay false (mac_map g true m) = mac_map g false m) /\
    (forall v, ev_map stay false (ev_map g true v) = ev_map g false v).
  Proof.
    apply syntax_ind2; intros.
    all: try solve [fcbn; ffin].
    - fcbn. rewrite H. destruct semi; reflexivity.
    - destruct view as [l|]; fcbn; rewrite ?path_stay, ?toks_stay; [|reflexivity]. cbn [optP] in *. rewrite (map_two _ _ _ l H). reflexivity.
  Qed.

  (** * Reading attributes *)
  Definition rmap {A B} (f : A -> B) (r : res A) : res B := match r with Ok x => Ok (f x) | Err e => Err e | Panic m => Panic m end.
  Definition inert_map (i : inert) : inert :=
    mk_inert (option_map (method_map g) (in_method i)) (in_targets i) (in_tails i) (in_ignores i) (in_results i) (in_macros i) (values_map g (in_bindings i)) (in_skip i) (in_skip_all i).
  Lemma args_map {A} l (x y : A) : match toks_map g l with [] => x | _ :: _ => y end = match l with [] => x | _ :: _ => y end.
  Proof. destruct l; reflexivity. Qed.
  Lemma hooq_map p n : path_is_hooq (path_map g p) n = path_is_hooq p n.
  Proof. destruct p as [b [|x [|y [|z s]]]]; try reflexivity. unfold path_is_hooq, seg_is, path_map. cbn. rewrite !args_map. reflexivity. Qed.
  Lemma name_map p : get_binding_name (path_map g p) = get_binding_name p.
  Proof. destruct p as [b [|x [|y [|z s]]]]; reflexivity. Qed.
  Lemma ident_map p : path_get_ident (path_map g p) = path_get_ident p.
  Proof. destruct p as [[] [|x [|y s]]]; try reflexivity. unfold path_get_ident, path_map. cbn. apply args_map. Qed.
  Lemma end_map p n : path_is_end_of (path_map g p) n = path_is_end_of p n.
  Proof. destruct p as [b s]. unfold path_is_end_of, path_map. cbn. rewrite <- map_rev. destruct (rev s); reflexivity. Qed.
  Lemma strings_map n : forall ts, length ts <= n -> parse_strings (toks_map g ts) = parse_strings ts.
  Proof.
    induction n as [|n IH]; intros ts Hn; [destruct ts; [reflexivity|cbn in Hn; lia]|].
    destruct ts as [|t ts]; [reflexivity|]. rewrite toks_cons. destruct t as [| |l|]; try reflexivity. destruct l; try reflexivity. cbn [tok_map parse_strings].
    destruct ts as [|t ts]; [reflexivity|]. rewrite toks_cons. destruct t as [| |l|]; try reflexivity. cbn [tok_map]. rewrite IH by (cbn in Hn; lia). reflexivity.
  Qed.
  Lemma strings_res_map ts : parse_strings_res (toks_map g ts) = parse_strings_res ts.
  Proof. unfold parse_strings_res. rewrite (strings_map (length ts)); reflexivity. Qed.
  Lemma bool_map ts : parse_bool (toks_map g ts) = parse_bool ts.
  Proof. destruct ts as [|[] [|u ts]]; reflexivity. Qed.
  Lemma tail_map ts : split_tail_exclamation (toks_map g ts) = (toks_map g (fst (split_tail_exclamation ts)), snd (split_tail_exclamation ts)).
  Proof.
    unfold split_tail_exclamation. unfold toks_map at 1. rewrite <- map_rev. destruct (rev ts) as [|t r]; [reflexivity|]. destruct t as [|a sp| |]; try reflexivity. cbn [map tok_map].
    destruct a as [[] [] [] [] [] [] [] []]; try reflexivity. cbn [fst snd]. unfold toks_map. rewrite map_rev. reflexivity.
  Qed.
  Lemma read_method_map c ts : parse_method c (toks_map g ts) = method_map g (parse_method c ts).
  Proof.
    unfold parse_method. destruct ts as [|t ts]; [destruct c; reflexivity|]. rewrite toks_cons.
    assert (Hd : forall u, (if c then let '(t0, exc) := split_tail_exclamation (toks_map g u) in Replace t0 exc else Replace (toks_map g u) false) =
      method_map g (if c then let '(t0, exc) := split_tail_exclamation u in Replace t0 exc else Replace u false)).
    { intros u. destruct c; [|reflexivity]. rewrite tail_map. destruct (split_tail_exclamation u); reflexivity. }
    destruct t as [s sp|a sp|l sp|d us sp]; [exact (Hd (TIdent s sp :: ts))| |exact (Hd (TLit l sp :: ts))|exact (Hd (TGroup d us sp :: ts))]. cbn [tok_map].
    destruct (ascii_dec a ".") as [->|Hn]; [destruct c; [|reflexivity]; rewrite tail_map; destruct (split_tail_exclamation ts); reflexivity|].
    transitivity (method_map g (if c then let '(t0, exc) := split_tail_exclamation (TPunct a sp :: ts) in Replace t0 exc else Replace (TPunct a sp :: ts) false)).
    - rewrite <- Hd. destruct a as [[] [] [] [] [] [] [] []]; try reflexivity. contradiction.
    - destruct a as [[] [] [] [] [] [] [] []]; try reflexivity. contradiction.
  Qed.
  Lemma names_map p : flavor_path_of_path (path_map g p) = flavor_path_of_path p.
  Proof.
    destruct p as [b s]. unfold flavor_path_of_path, path_map. cbn [p_segs]. induction s as [|x s IH]; [reflexivity|]. cbn [map mapR seg_args seg_id]. rewrite args_map, IH.
    destruct (seg_args x); reflexivity.
  Qed.
  Lemma mget_map k b : mget k (values_map g b) = option_map (toks_map g) (mget k b).
  Proof. induction b as [|[k' v] b IH]; [reflexivity|]. unfold values_map in *. cbn [map mget fst snd]. destruct (String.eqb k k'); [reflexivity|exact IH]. Qed.
  Lemma minsert_map k v b : minsert k (toks_map g v) (values_map g b) = values_map g (minsert k v b).
  Proof. induction b as [|[k' w] b IH]; [reflexivity|]. unfold values_map in *. cbn [map minsert fst snd]. destruct (String.eqb k k'); [reflexivity|]. cbn [map fst snd]. congruence. Qed.
  Lemma mextend_map l : forall b, mextend (values_map g b) (values_map g l) = values_map g (mextend b l).
  Proof. unfold mextend. induction l as [|[k v] l IH]; intros b; [reflexivity|]. change (values_map g ((k, v) :: l)) with ((k, toks_map g v) :: values_map g l). cbn [fold_left fst snd]. rewrite minsert_map. apply IH. Qed.

  Variable E : env.
  Hypothesis HS : reads_settings_moved g E.
  Lemma value_flavor_map v n : flavor_of_value (ev_attr E) (value_map g v) n = flavor_of_value (ev_attr E) v n.
  Proof. unfold flavor_of_value. destruct v; cbn [value_map get_flavor_path]; rewrite ?names_map; reflexivity. Qed.
  Lemma value_flavor_still v n f : flavor_of_value (ev_attr E) v n = Ok f -> core_map g f = f.
  Proof. unfold flavor_of_value. destruct (get_flavor_path v n); cbn [bindR]; try discriminate. apply HS. Qed.
  Lemma core_still f : core_map g f = f -> method_map g (fl_method f) = fl_method f /\ values_map g (fl_bindings f) = fl_bindings f.
  Proof. destruct f. unfold core_map. cbn. intros H. injection H as H1 H2. split; assumption. Qed.
  Lemma add_map l i : add_bindings (values_map g l) (inert_map i) = inert_map (add_bindings l i).
  Proof. unfold add_bindings, inert_map. cbn [in_method in_targets in_tails in_ignores in_results in_macros in_bindings in_skip in_skip_all]. rewrite mextend_map. reflexivity. Qed.
  Lemma one_value b v : [(b, toks_map g v)] = values_map g [(b, v)].
  Proof. reflexivity. Qed.
  Definition step_map (x : inert * bool) : inert * bool := (inert_map (fst x), snd x).
  Ltac fl v n := rewrite value_flavor_map; destruct (flavor_of_value (ev_attr E) v n) as [f|x|x] eqn:Ef; cbn [bindR rmap]; try reflexivity;
    apply value_flavor_still, core_still in Ef; destruct Ef as [Em Eb].
  Lemma attr_step_map i m : attr_step (ev_attr E) (inert_map i) (meta_map g m) = rmap step_map (attr_step (ev_attr E) i m).
  Proof.
    destruct m as [p|p d ts sp|p v]; cbn [meta_map attr_step]; rewrite !hooq_map.
    - repeat match goal with |- context[if path_is_hooq p ?n then _ else _] => destruct (path_is_hooq p n); try reflexivity end.
      rewrite name_map. destruct (get_binding_name p) as [[]|?|?]; reflexivity.
    - destruct (path_is_hooq p "method"); [rewrite read_method_map; reflexivity|].
      rewrite strings_res_map, bool_map. destruct HS as [Hm _].
      repeat match goal with |- context[if path_is_hooq p ?n then _ else _] => destruct (path_is_hooq p n) end;
        try (match goal with |- context[parse_strings_res ts] => destruct (parse_strings_res ts) as [l|?|?]; cbn [bindR]; try reflexivity end).
      + destruct (switch_try_from l); reflexivity.
      + destruct (split_include l). reflexivity.
      + destruct (parse_bool ts); reflexivity.
      + destruct (_ || _).
        * rewrite Hm. destruct (ae_mnv (ev_attr E) ts) as [[q w]|]; [|reflexivity]. cbn [option_map fst snd]. rewrite ident_map. destruct (path_get_ident q); [|reflexivity].
          rewrite one_value, add_map. reflexivity.
        * rewrite name_map. destruct (get_binding_name p) as [[]|?|?]; reflexivity.
    - repeat match goal with |- context[if path_is_hooq p ?n then _ else _] => destruct (path_is_hooq p n) end.
      + fl v "flavor". unfold step_map. cbn [fst snd]. rewrite <- Eb at 1. rewrite <- Em at 1. rewrite <- add_map. reflexivity.
      + fl v "method". unfold step_map. cbn [fst snd]. rewrite <- Em at 1. reflexivity.
      + fl v "hook_targets".
      + fl v "tail_expr_idents".
      + reflexivity.
      + fl v "result_types".
      + fl v "hook_in_macros".
      + fl v "bindings". unfold step_map. cbn [fst snd]. rewrite <- Eb at 1. rewrite add_map. reflexivity.
      + rewrite name_map. destruct (get_binding_name p) as [[b|]|?|?]; cbn [bindR]; try reflexivity. rewrite value_toks_map, one_value, add_map. reflexivity.
  Qed.
  Lemma extract_map l : forall i, extract_loop (ev_attr E) (map (attr_map g) l) (inert_map i) = rmap (fun x => (inert_map (fst x), map (attr_map g) (snd x))) (extract_loop (ev_attr E) l i).
  Proof.
    induction l as [|a l IH]; intros i; [reflexivity|]. cbn [map extract_loop]. replace (at_meta (attr_map g a)) with (meta_map g (at_meta a)) by reflexivity. rewrite attr_step_map.
    destruct (attr_step (ev_attr E) i (at_meta a)) as [[i1 b]|x|x]; cbn [rmap bindR step_map fst snd]; try reflexivity. rewrite IH.
    destruct (extract_loop (ev_attr E) l i1) as [[i2 l2]|x|x]; cbn [rmap bindR fst snd]; try reflexivity. destruct b; reflexivity.
  Qed.
  Lemma from_parent_map {T} (h : T -> T) o p : from_parent (option_map h o) (over h p) = over h (from_parent o p).
  Proof. destruct o; reflexivity. Qed.
  Lemma over_val {T} (h : T -> T) p : fval (over h p) = h (fval p).
  Proof. destruct p; reflexivity. Qed.
  Lemma merged_map b p : merged_from_parent (values_map g b) (over (values_map g) p) = over (values_map g) (merged_from_parent b p).
  Proof.
    unfold merged_from_parent. rewrite over_val. destruct b as [|kv b]; [reflexivity|]. rewrite mextend_map. unfold values_map at 1. cbn [map]. reflexivity.
  Qed.
  Lemma update_map c i : updated_by_inert_attr (ctx_map g c) (inert_map i) = ctx_map g (updated_by_inert_attr c i).
  Proof.
    unfold updated_by_inert_attr, ctx_map, inert_map.
    cbn [in_method in_targets in_tails in_ignores in_results in_macros in_bindings in_skip in_skip_all cx_method cx_targets cx_tails cx_ignores cx_results cx_macros cx_bindings cx_skip cx_fn].
    rewrite from_parent_map, merged_map. reflexivity.
  Qed.
  Lemma handle_map l c : handle_inert_attrs (ev_attr E) (map (attr_map g) l) (ctx_map g c) =
    rmap (fun x => (map (attr_map g) (fst (fst x)), snd (fst x), ctx_map g (snd x))) (handle_inert_attrs (ev_attr E) l c).
  Proof.
    unfold handle_inert_attrs, extract. change inert0 with (inert_map inert0) at 1. rewrite extract_map. destruct (extract_loop (ev_attr E) l inert0) as [[i l2]|x|x]; cbn [rmap bindR fst snd]; try reflexivity.
    rewrite update_map. reflexivity.
  Qed.

  (** * What the walker reads of a context *)
  Lemma sub_map c : for_sub_scope (ctx_map g c) = ctx_map g (for_sub_scope c).
  Proof. reflexivity. Qed.
  Lemma fn_map c i : update_fn_info (ctx_map g c) (info_map g i) = ctx_map g (update_fn_info c i).
  Proof. reflexivity. Qed.
  Lemma ancestor_map : forall x, ancestor_fn_name (over (option_map (info_map g)) x) = ancestor_fn_name x.
  Proof. fix IH 1. intros [[[s|o t n]|] [a|]]; cbn; try reflexivity; apply IH. Qed.
  Lemma closure_map out ts x : closure_info_new (ret_map g out) (toks_map g ts) (over (option_map (info_map g)) x) = info_map g (closure_info_new out ts x).
  Proof. unfold closure_info_new. rewrite ancestor_map. reflexivity. Qed.
  Lemma result_map c : return_type_is_result (ctx_map g c) = return_type_is_result c.
  Proof.
    unfold return_type_is_result. unfold ctx_map. cbn [cx_fn cx_results]. rewrite over_val.
    assert (Hp : forall p l, existsb (path_is_end_of (path_map g p)) l = existsb (path_is_end_of p) l) by (intros p l; induction l; cbn; [reflexivity|]; rewrite end_map; congruence).
    destruct (fval (cx_fn c)) as [[s|o ts n]|]; cbn [option_map info_map fn_info_is_result]; try reflexivity.
    - destruct s as [n [|p|] ts]; try reflexivity. apply Hp.
    - destruct o as [|p|]; try reflexivity. apply Hp.
  Qed.
  Lemma check_map c e e' : shape_of e' = shape_map g (shape_of e) -> target_call_check (ctx_map g c) e' = target_call_check c e.
  Proof.
    intros H. assert (Hc : call_path e' = option_map (path_map g) (call_path e)).
    { unfold call_path. unfold shape_of in H. destruct (seen e) eqn:He, (seen e') eqn:He'; try reflexivity; try discriminate;
        repeat match type of H with context[match seen ?f with _ => _ end] => destruct (seen f); try discriminate; try reflexivity end; cbn in H; try discriminate; cbn [option_map]; congruence. }
    unfold target_call_check. rewrite Hc. destruct (call_path e) as [p|]; [|reflexivity]. cbn [option_map]. unfold path_is_hook_call_like_err, path_is_not_hook_call_like_ok.
    assert (Hp : forall p l, existsb (path_is_end_of (path_map g p)) l = existsb (path_is_end_of p) l) by (intros q l; induction l; cbn; [reflexivity|]; rewrite end_map; congruence).
    rewrite !Hp. reflexivity.
  Qed.

  (** * Texts *)
  Local Notation same := (Forall2 (moved g E)).
  Lemma moved_map t : moved g E t (tok_map g t).
  Proof. induction t as [s p|c p|l p|d ts p IH] using tt_ind'; cbn [tok_map]; try constructor. induction IH; cbn [map]; constructor; assumption. Qed.
  Lemma same_map ts : same ts (toks_map g ts).
  Proof. unfold toks_map. induction ts; cbn [map]; constructor; [apply moved_map|assumption]. Qed.
  Lemma same_made ts : toks_map g ts = ts -> same ts ts.
  Proof. intros H. rewrite <- H at 2. apply same_map. Qed.
  Lemma mapp a a' b b' : same a a' -> same b b' -> same (a ++ b) (a' ++ b').
  Proof. apply Forall2_app. Qed.
  Lemma mcons t a a' : same a a' -> same (t :: a) (tok_map g t :: a').
  Proof. constructor; [apply moved_map|assumption]. Qed.
  Lemma mgroup d sp a a' : same a a' -> same [TGroup d a sp] [TGroup d a' (g sp)].
  Proof. intros H. constructor; [constructor; exact H|constructor]. Qed.
  Lemma mqg d a a' : same a a' -> moved g E (qg d a) (qg d a').
  Proof. intros H. unfold qg. rewrite <- Hg at 2. constructor. exact H. Qed.
  Lemma mqi s : moved g E (qi s) (qi s).
  Proof. rewrite <- (qi_map s) at 2. apply moved_map. Qed.
  Lemma mqp s : moved g E (qp s) (qp s).
  Proof. rewrite <- (qp_map s) at 2. apply moved_map. Qed.
  Lemma mqs s : moved g E (qs s) (qs s).
  Proof. rewrite <- (qs_map s) at 2. apply moved_map. Qed.
  Lemma mqpath l : same (qpath l) (qpath l).
  Proof. apply same_made, qpath_map. Qed.
  Lemma mline q : moved g E (qn (sp_line q)) (qn (sp_line (g q))).
  Proof. unfold qn. rewrite <- Hg at 2. constructor. Qed.
  Lemma mcol q : moved g E (qn (sp_col q)) (qn (sp_col (g q))).
  Proof. unfold qn. rewrite <- Hg at 2. apply mv_column. Qed.
  Lemma mpath q : moved g E (qs (sp_file q)) (qs (sp_file (g q))).
  Proof. unfold qs. rewrite <- Hg at 2. apply mv_path. Qed.
  Lemma mfile q : moved g E (qs (get_file_name q)) (qs (get_file_name (g q))).
  Proof. unfold qs. rewrite <- Hg at 2. eapply mv_file; apply file_name_spec. Qed.
  Lemma mtext ts : moved g E (qs (ev_str E ts)) (qs (ev_str E (toks_map g ts))).
  Proof. unfold qs. rewrite <- Hg at 2. apply mv_text. Qed.
  Lemma mspan q a a' : same a a' -> same (map (set_span q) a) (map (set_span (g q)) a').
  Proof. induction 1 as [|x y a a' H]; cbn [map]; [constructor|]. constructor; [|assumption]. destruct H; cbn [set_span]; econstructor; eassumption. Qed.
  Lemma mstart a a' : same a a' -> ts_span a' = g (ts_span a).
  Proof. destruct 1 as [|x y a a' H]; [symmetry; exact Hg|]. cbn [ts_span]. destruct H; reflexivity. Qed.

  (** * Rendering *)
  Definition rsame (x y : res (list tt)) : Prop :=
    match x, y with Ok a, Ok b => same a b | Err a, Err b => a = b | Panic a, Panic b => a = b | _, _ => False end.
  Definition tsame (x y : res tt) : Prop :=
    match x, y with Ok a, Ok b => moved g E a b | Err a, Err b => a = b | Panic a, Panic b => a = b | _, _ => False end.
  Lemma rbind x y (f h : list tt -> res (list tt)) : rsame x y -> (forall a b, same a b -> rsame (f a) (h b)) -> rsame (bindR x f) (bindR y h).
  Proof. destruct x, y; cbn; try contradiction; auto. Qed.
  Lemma tbind x y (f h : tt -> res (list tt)) : tsame x y -> (forall a b, moved g E a b -> rsame (f a) (h b)) -> rsame (bindR x f) (bindR y h).
  Proof. destruct x, y; cbn; try contradiction; auto. Qed.
  Lemma loop_moved grp grp' var var' ts : Forall (fun t => tsame (grp t) (grp' (tok_map g t))) ts -> (forall n, rsame (var n) (var' n)) ->
    forall flag, rsame (expand_loop grp var flag ts) (expand_loop grp' var' flag (toks_map g ts)).
  Proof.
    intros HF Hv. induction HF as [|t r Ht HF IH]; intros flag; [constructor|]. rewrite toks_cons.
    assert (Hc : forall a, rsame (bindR (expand_loop grp var false r) (fun r' => Ok (a :: r'))) (bindR (expand_loop grp' var' false (toks_map g r)) (fun r' => Ok (tok_map g a :: r')))).
    { intros a. apply rbind; [apply IH|]. intros x y Hxy. apply mcons, Hxy. }
    destruct t as [s p|s p|l p|d ts p]; destruct flag; cbn [tok_map expand_loop]; try reflexivity.
    - apply rbind; [apply Hv|]. intros a b Hab. apply rbind; [apply IH|]. intros x y Hxy. apply mapp; assumption.
    - apply (Hc (TIdent s p)).
    - destruct (Ascii.eqb s "$"); [apply IH|apply (Hc (TPunct s p))].
    - apply (Hc (TLit l p)).
    - apply tbind; [exact Ht|]. intros a b Hab. apply rbind; [apply IH|]. intros x y Hxy. constructor; assumption.
  Qed.
  Lemma group_moved var var' : (forall n, rsame (var n) (var' n)) -> forall t, tsame (expand_group var t) (expand_group var' (tok_map g t)).
  Proof.
    intros Hv. induction t as [s p|s p|l p|d ts p IH] using tt_ind'; try (cbn; constructor). rewrite group_map. cbn [expand_group].
    pose proof (loop_moved _ _ _ _ ts IH Hv false) as H. destruct (expand_loop _ _ _ ts), (expand_loop _ _ _ (toks_map g ts)); try contradiction; cbn in *; auto. apply (mqg d), H.
  Qed.
  Lemma sort_map b : sort_by_key (values_map g b) = values_map g (sort_by_key b).
  Proof.
    induction b as [|x b IH]; [reflexivity|]. change (values_map g (x :: b)) with ((fst x, toks_map g (snd x)) :: values_map g b). cbn [sort_by_key]. rewrite IH. generalize (sort_by_key b). clear.
    intros l. induction l as [|y l IH]; [reflexivity|]. change (values_map g (y :: l)) with ((fst y, toks_map g (snd y)) :: values_map g l). cbn [insert_sorted fst].
    destruct (str_leb (fst x) (fst y)); [reflexivity|]. rewrite IH. reflexivity.
  Qed.
  Ltac made := repeat first [apply mqi | apply mqp | apply mqs | apply mqpath | apply mqg | apply mtext | apply same_map | apply Forall2_nil | apply mapp | apply Forall2_cons].
  Lemma tuples_moved l : same (commas (map (binding_tuple (ev_str E)) l)) (commas (map (binding_tuple (ev_str E)) (values_map g l))).
  Proof.
    assert (Ht : forall x, same (binding_tuple (ev_str E) x) (binding_tuple (ev_str E) (fst x, toks_map g (snd x)))).
    { intros [k v]. unfold binding_tuple. cbn [fst snd]. made. }
    induction l as [|x l IH]; [constructor|]. change (values_map g (x :: l)) with ((fst x, toks_map g (snd x)) :: values_map g l). cbn [map commas].
    destruct l as [|y l]; [apply Ht|]. change (values_map g (y :: l)) with ((fst y, toks_map g (snd y)) :: values_map g l) in *. cbn [map] in *. apply mapp; [apply Ht|]. constructor; [apply mqp|exact IH].
  Qed.
  Lemma bindings_moved c : same (get_bindings_token_stream (ev_str E) c) (get_bindings_token_stream (ev_str E) (ctx_map g c)).
  Proof.
    unfold get_bindings_token_stream, available_bindings. unfold ctx_map. cbn [cx_bindings]. rewrite over_val, sort_map. apply mapp; [apply mqpath|]. repeat constructor. apply mqg. repeat constructor. apply mqg.
    apply tuples_moved.
  Qed.
  Lemma sig_text_moved c : moved g E (qs (get_fn_sig (ev_str E) c)) (qs (get_fn_sig (ev_str E) (ctx_map g c))).
  Proof.
    unfold get_fn_sig, ctx_map. cbn [cx_fn]. rewrite over_val. destruct (fval (cx_fn c)) as [[s|o ts n]|]; cbn [option_map info_map fn_info_sig_toks]; try apply mtext. apply mqs.
  Qed.
  Lemma fn_name_moved c : get_fn_name (ctx_map g c) = get_fn_name c.
  Proof. unfold get_fn_name, ctx_map. cbn [cx_fn]. rewrite over_val. destruct (fval (cx_fn c)) as [[s|o ts n]|]; reflexivity. Qed.
  Lemma var_moved c k n src ets ets' q s s' x : same ets ets' -> rsame s s' ->
    rsame (meta_var_toks (ev_str E) c k n src ets q s x) (meta_var_toks (ev_str E) (ctx_map g c) k n (toks_map g src) ets' (g q) s' x).
  Proof.
    intros He Hs. unfold meta_var_toks. destruct (metavar_of x) as [[]|]; cbn [rsame]; try assumption.
    - constructor; [apply mline|constructor].
    - constructor; [apply mcol|constructor].
    - constructor; [apply mpath|constructor].
    - constructor; [apply mfile|constructor].
    - apply same_map.
    - constructor; [apply mqs|constructor].
    - rewrite fn_name_moved. constructor; [apply mqs|constructor].
    - constructor; [apply sig_text_moved|constructor].
    - apply bindings_moved.
    - unfold hooq_meta. apply mapp; [apply mqpath|]. repeat constructor. apply mqg. apply mapp; [|apply mapp; [apply bindings_moved|made]].
      repeat first [apply mqi | apply mqp | apply mline | apply mcol | apply mpath | apply mfile | apply mtext | apply mqs | apply Forall2_nil | apply Forall2_cons].
    - unfold get_binding, available_bindings, ctx_map. cbn [cx_bindings]. rewrite over_val, mget_map, sort_map. destruct (mget x _); cbn [option_map rsame]; [apply same_map|].
      unfold values_map. rewrite map_map. reflexivity.
  Qed.
  Lemma method_moved c k n src ets ets' q : same ets ets' -> forall fm,
    rsame (expand_method (ev_str E) c k n src ets q fm) (expand_method (ev_str E) (ctx_map g c) k n (toks_map g src) ets' (g q) (over (method_map g) fm)).
  Proof.
    intros He. fix IH 1. intros [m anc]. cbn [over expand_method].
    assert (Ha : rsame (match anc with Some a => expand_method (ev_str E) c k n src ets q a | None => Err ErrNoSoFar end)
                       (match option_map (over (method_map g)) anc with Some a => expand_method (ev_str E) (ctx_map g c) k n (toks_map g src) ets' (g q) a | None => Err ErrNoSoFar end)).
    { destruct anc as [a|]; [apply IH|reflexivity]. }
    unfold expand_with. replace (m_template (method_map g m)) with (toks_map g (m_template m)) by (destruct m; reflexivity).
    apply loop_moved; [|intros x; apply var_moved; assumption]. apply Forall_forall. intros t _. apply group_moved. intros x. apply var_moved; assumption.
  Qed.
  Lemma render_moved c k n src ets ets' q : same ets ets' ->
    rsame (render_toks (ev_str E) c k n src ets q) (render_toks (ev_str E) (ctx_map g c) k n (toks_map g src) ets' (g q)).
  Proof.
    intros He. unfold render_toks. apply rbind; [apply method_moved, He|]. intros a b Hab. replace (fval (cx_method (ctx_map g c))) with (method_map g (fval (cx_method c))) by (symmetry; apply over_val).
    destruct (fval (cx_method c)); cbn.
    - apply mapp; [exact He|]. constructor; [constructor|]. apply mspan, Hab.
    - apply mspan, Hab.
  Qed.

  (** * Two runs *)
  Hypothesis HE : reads_moved g E.
  Definition sim {A B} (R : A -> B -> Prop) (m1 : M A) (m2 : M B) : Prop :=
    forall n, match m1 n, m2 n with
              | Ok (a, n1), Ok (b, n2) => n1 = n2 /\ R a b
              | Err x, Err y => x = y
              | Panic x, Panic y => x = y
              | _, _ => False
              end.
  Lemma sim_ret {A B} (R : A -> B -> Prop) a b : R a b -> sim R (ret a) (ret b).
  Proof. intros H n. split; [reflexivity|exact H]. Qed.
  Lemma sim_bind {A B C D} (R : A -> B -> Prop) (Q : C -> D -> Prop) m1 m2 f1 f2 : sim R m1 m2 -> (forall a b, R a b -> sim Q (f1 a) (f2 b)) -> sim Q (bind m1 f1) (bind m2 f2).
  Proof.
    intros H HF n. unfold bind. specialize (H n). destruct (m1 n) as [[a k1]|x|x], (m2 n) as [[b k2]|y|y]; try contradiction; try exact H. destruct H as [<- H]. apply HF, H.
  Qed.
  Lemma sim_map {A} (h : A -> A) (R : A -> A -> Prop) (f f' : A -> M A) l : Forall (fun x => sim R (f x) (f' (h x))) l -> sim (Forall2 R) (mapM f l) (mapM f' (map h l)).
  Proof.
    induction 1 as [|x l Hx Hl IH]; cbn [mapM map]; [apply sim_ret; constructor|]. eapply sim_bind; [exact Hx|]. intros a b Hab. eapply sim_bind; [exact IH|].
    intros l1 l2 Hll. apply sim_ret. constructor; assumption.
  Qed.
  Lemma sim_mapi {A} (h : A -> A) (R : A -> A -> Prop) (f f' : nat -> A -> M A) l : Forall (fun x => forall i, sim R (f i x) (f' i (h x))) l ->
    forall i, sim (Forall2 R) (mapiM f i l) (mapiM f' i (map h l)).
  Proof.
    induction 1 as [|x l Hx Hl IH]; intros i; cbn [mapiM map]; [apply sim_ret; constructor|]. eapply sim_bind; [apply Hx|]. intros a b Hab. eapply sim_bind; [apply IH|].
    intros l1 l2 Hll. apply sim_ret. constructor; assumption.
  Qed.
  Lemma sim_opt {A} (h : A -> A) (R : A -> A -> Prop) (f f' : A -> M A) o : optP (fun x => sim R (f x) (f' (h x))) o -> sim (both R) (optM f o) (optM f' (option_map h o)).
  Proof.
    destruct o; cbn [optM optP option_map]; intros H; [|apply sim_ret; exact I]. eapply sim_bind; [exact H|]. intros x y Hxy. apply sim_ret. exact Hxy.
  Qed.
  Definition close (e e' : expr) : Prop := same (etoks e) (etoks e') /\ shape_of e' = shape_map g (shape_of e) /\ expr_map stay false e' = expr_map g false e.
  Definition close_by {A} (toks : A -> list tt) (mv : (span -> span) -> bool -> A -> A) (x y : A) : Prop := same (toks x) (toks y) /\ mv stay false y = mv g false x.
  Local Notation close_stmt := (close_by stoks stmt_map).
  Local Notation close_item := (close_by itoks item_map).
  Local Notation close_impl := (close_by iitoks impl_map).
  Local Notation close_trait := (close_by titoks trait_map).
  Local Notation close_arm := (close_by armtoks arm_map).
  Local Notation close_field := (close_by fieldtoks field_map).
  Local Notation close_mac := (close_by mtoks mac_map).
  Local Notation close_ev := (close_by vtoks ev_map).
  Lemma sim_keep {B} (Q : B -> B -> Prop) a c f1 f2 : (forall a' s c', sim Q (f1 (a', s, c')) (f2 (map (attr_map g) a', s, ctx_map g c'))) ->
    sim Q (bind (handle E a c) f1) (bind (handle E (map (attr_map g) a) (ctx_map g c)) f2).
  Proof.
    intros H. eapply (sim_bind (fun x y => y = (map (attr_map g) (fst (fst x)), snd (fst x), ctx_map g (snd x)))); [|intros [[a' s] c'] y ->; apply H].
    intros n. unfold handle, lift. rewrite handle_map. destruct (handle_inert_attrs _ _ _); cbn; auto.
  Qed.
  Lemma sim_hook apply e1 e2 src k q c : close e1 e2 ->
    sim (fun x y => close (fst x) (fst y) /\ snd x = snd y) (hook_expr E apply e1 src k q c) (hook_expr E apply e2 (toks_map g src) k (g q) (ctx_map g c)).
  Proof.
    intros (He & Hs & Ho) n. unfold hook_expr. destruct apply; cbn [negb]; [|cbn; unfold close; auto]. replace (is_hook_target (ctx_map g c) k) with (is_hook_target c k) by (destruct k; reflexivity).
    destruct (is_hook_target c k); cbn [negb]; [|cbn; unfold close; auto].
    unfold render_expr. pose proof (render_moved c k (get_count k (count_up k n)) src _ _ q He) as HR.
    destruct (render_toks _ _ _ _ _ (etoks e1) _) as [t1|x|x]; destruct (render_toks _ _ _ _ _ (etoks e2) _) as [t2|y|y]; cbn [rsame bindR] in *; try contradiction; auto.
    pose proof (HE t1 t2 HR) as HP. destruct (ev_parse E t1), (ev_parse E t2); try contradiction; [|reflexivity]. destruct HP as [H1 H2]. cbn [fst snd].
    split; [reflexivity|]. split; [|replace (fval (cx_method (ctx_map g c))) with (method_map g (fval (cx_method c))) by (symmetry; apply over_val); destruct (fval (cx_method c)); reflexivity].
    split; [exact H1|]. split; [exact H2|]. cbn [expr_map]. rewrite Ho, hook_stay. reflexivity.
  Qed.

  Definition A_expr (e : expr) : Prop := forall ov c, sim close (walk_expr E ov c e) (walk_expr E (option_map (map (attr_map g)) ov) (ctx_map g c) (expr_map g true e)).
  Definition A_stmt (s : stmt) : Prop := forall tk c, sim close_stmt (walk_stmt E tk c s) (walk_stmt E tk (ctx_map g c) (stmt_map g true s)).
  Definition A_item (i : item) : Prop := forall c, sim close_item (walk_item E c i) (walk_item E (ctx_map g c) (item_map g true i)).
  Definition A_impl (i : impl_item) : Prop := forall c, sim close_impl (walk_impl_item E c i) (walk_impl_item E (ctx_map g c) (impl_map g true i)).
  Definition A_trait (i : trait_item) : Prop := forall c, sim close_trait (walk_trait_item E c i) (walk_trait_item E (ctx_map g c) (trait_map g true i)).
  Definition A_arm (i : arm) : Prop := forall c, sim close_arm (walk_arm E c i) (walk_arm E (ctx_map g c) (arm_map g true i)).
  Definition A_field (i : fieldv) : Prop := forall c, sim close_field (walk_field E c i) (walk_field E (ctx_map g c) (field_map g true i)).
  Definition A_mac (i : mac) : Prop := forall c, sim close_mac (walk_mac E c i) (walk_mac E (ctx_map g c) (mac_map g true i)).
  Definition A_ev (i : evaluable) : Prop := forall c, sim close_ev (walk_evaluable E c i) (walk_evaluable E (ctx_map g c) (ev_map g true i)).

  Lemma shape_same e : shape_of (expr_map g true e) = shape_map g (shape_of e).
  Proof.
    assert (Hs : forall e, seen (expr_map g true e) = expr_map g true (seen e)).
    { induction e0 using expr_ind; try reflexivity. cbn [expr_map seen]. assumption. }
    unfold shape_of. rewrite Hs. destruct (seen e); try reflexivity. cbn [expr_map]. rewrite Hs. destruct (seen e0); reflexivity.
  Qed.

  (** a part that is not walked *)
  Lemma close_map e : close e (expr_map g true e).
  Proof. destruct printed as (H & _), forgets as (H' & _). split; [rewrite H; apply same_map|]. split; [apply shape_same|apply H']. Qed.
  Lemma mpunct {A} (f : A -> list tt) l l' cs : Forall2 (fun x y => same (f x) (f y)) l l' -> same (punctuated (map f l) cs) (punctuated (map f l') (toks_map g cs)).
  Proof.
    intros H. revert cs. induction H as [|x y l l' Hx Hl IH]; intros cs; [constructor|]. cbn [map punctuated]. apply mapp; [exact Hx|].
    destruct cs as [|t cs]; [apply (IH [])|]. rewrite toks_cons. apply mcons, IH.
  Qed.
  Lemma mflat {A} (f : A -> list tt) l l' : Forall2 (fun x y => same (f x) (f y)) l l' -> same (flat_map f l) (flat_map f l').
  Proof. induction 1; cbn [flat_map]; [constructor|]. apply mapp; assumption. Qed.
  Lemma mopt {A} (f : A -> list tt) o o' : both (fun x y => same (f x) (f y)) o o' -> same (opt_toks f o) (opt_toks f o').
  Proof. destruct o, o'; cbn; try contradiction; auto. Qed.
  Lemma mouter a : same (outer_toks a) (outer_toks (map (attr_map g) a)).
  Proof. rewrite outer_map. apply same_map. Qed.
  Lemma minner a : same (inner_toks a) (inner_toks (map (attr_map g) a)).
  Proof. rewrite inner_map. apply same_map. Qed.
  Lemma mpaths p : same (path_toks p) (path_toks (path_map g p)).
  Proof. rewrite path_toks_map. apply same_map. Qed.
  Lemma close_toks l l' : Forall2 close l l' -> Forall2 (fun x y => same (etoks x) (etoks y)) l l' /\ map (expr_map stay false) l' = map (expr_map g false) l.
  Proof. induction 1 as [|x y l l' (H1 & _ & H2) HF [IH1 IH2]]; [split; constructor|]. split; [constructor; assumption|cbn [map]; congruence]. Qed.
  Lemma by_toks {A} (t : A -> list tt) o l l' : Forall2 (close_by t o) l l' -> Forall2 (fun x y => same (t x) (t y)) l l' /\ map (o stay false) l' = map (o g false) l.
  Proof. induction 1 as [|x y l l' (H1 & H2) HF [IH1 IH2]]; [split; constructor|]. split; [constructor; assumption|cbn [map]; congruence]. Qed.
  Lemma opt_close o o' : both close o o' -> both (fun x y => same (etoks x) (etoks y)) o o' /\ option_map (expr_map stay false) o' = option_map (expr_map g false) o.
  Proof. destruct o, o'; cbn; try contradiction; [|auto]. intros (H1 & _ & H2). split; [exact H1|congruence]. Qed.

  Lemma get_map e : get_attrs (expr_map g true e) = option_map (map (attr_map g)) (get_attrs e).
  Proof. destruct e; reflexivity. Qed.
  Lemma set_map a e : set_attrs (map (attr_map g) a) (expr_map g true e) = expr_map g true (set_attrs a e).
  Proof. destruct e; reflexivity. Qed.
  Lemma sim_tail tk e c : A_expr e ->
    sim close (handle_tail_with E (fun ov c' => walk_expr E ov c' e) e c tk)
      (handle_tail_with E (fun ov c' => walk_expr E ov c' (expr_map g true e)) (expr_map g true e) (ctx_map g c) tk).
  Proof.
    intros HA. unfold handle_tail_with. rewrite get_map. destruct (get_attrs e) as [a|] eqn:Ea; cbn [option_map]; [|apply sim_ret, close_map].
    apply sim_keep. intros a' s c'. eapply sim_bind; [apply (HA (Some a'))|]. intros x y Hxy. destruct (negb (is_target tk)); [apply sim_ret, Hxy|].
    rewrite (check_map c' x y) by apply Hxy. rewrite result_map. destruct (target_call_check c' x) as [t nt]. destruct (_ || _); [|apply sim_ret, Hxy].
    rewrite (mstart _ _ (proj1 Hxy)), set_map, (proj1 printed). eapply sim_bind; [apply sim_hook, Hxy|]. intros [x' ?] [y' ?] [H1 H2]. apply sim_ret. exact H1.
  Qed.
  Lemma sim_stmts (tk : nat -> tail_kind) c b : Forall A_stmt b ->
    sim (Forall2 close_stmt) (mapiM (fun i s => walk_stmt E (tk i) c s) 0 b) (mapiM (fun i s => walk_stmt E (tk i) (ctx_map g c) s) 0 (map (stmt_map g true) b)).
  Proof. intros HF. apply sim_mapi. eapply Forall_impl; [|exact HF]. intros s Hs i. apply Hs. Qed.
  Lemma now_map ov a : attrs_now (option_map (map (attr_map g)) ov) (map (attr_map g) a) = map (attr_map g) (attrs_now ov a).
  Proof. destruct ov; reflexivity. Qed.

  Ltac agcbn :=
    cbn [walk_expr walk_stmt walk_item walk_impl_item walk_trait_item walk_arm walk_field walk_mac walk_evaluable
         expr_map stmt_map item_map impl_map trait_map arm_map field_map ev_map];
    try fold (walk_expr E); try fold (walk_stmt E); try fold (walk_item E); try fold (walk_impl_item E);
    try fold (walk_trait_item E); try fold (walk_arm E); try fold (walk_field E); try fold (walk_mac E);
    try fold (walk_evaluable E); rewrite ?now_map.
  Ltac each := match goal with H : Forall ?P ?l |- Forall _ ?l => eapply Forall_impl; [|exact H]; let x := fresh in let hx := fresh in intros x hx; first [apply hx | apply (hx None)] end.
  Ltac awalk :=
    rewrite ?sub_map, ?map_length;
    repeat match goal with |- context[FnInfo (sig_map g ?s)] => change (FnInfo (sig_map g s)) with (info_map g (FnInfo s)) end; rewrite ?fn_map, ?sub_map;
    first
    [ match goal with H : A_expr ?e |- sim _ (walk_expr _ None _ ?e) _ => apply (H None) end
    | match goal with H : A_mac ?e |- sim _ (walk_mac _ _ ?e) _ => apply H end
    | match goal with H : A_item ?e |- sim _ (walk_item _ _ ?e) _ => apply H end
    | match goal with H : A_stmt ?e |- sim _ (walk_stmt _ _ _ ?e) _ => apply H end
    | match goal with H : optP A_expr ?o |- sim _ (optM _ ?o) _ => apply (sim_opt (expr_map g true) close); destruct o; cbn [optP] in *; [apply (H None)|exact I] end
    | match goal with |- sim _ (mapiM _ 0 _) _ => apply sim_stmts; assumption end
    | match goal with H : Forall A_expr ?l |- sim _ (mapM _ ?l) _ => apply (sim_map (expr_map g true) close); each end
    | match goal with H : Forall A_item ?l |- sim _ (mapM _ ?l) _ => apply (sim_map (item_map g true) close_item); each end
    | match goal with H : Forall A_impl ?l |- sim _ (mapM _ ?l) _ => apply (sim_map (impl_map g true) close_impl); each end
    | match goal with H : Forall A_trait ?l |- sim _ (mapM _ ?l) _ => apply (sim_map (trait_map g true) close_trait); each end
    | match goal with H : Forall A_arm ?l |- sim _ (mapM _ ?l) _ => apply (sim_map (arm_map g true) close_arm); each end
    | match goal with H : Forall A_field ?l |- sim _ (mapM _ ?l) _ => apply (sim_map (field_map g true) close_field); each end
    | match goal with H : Forall A_ev ?l |- sim _ (mapM _ ?l) _ => apply (sim_map (ev_map g true) close_ev); each end ].
  Ltac ago :=
    repeat match goal with
    | |- sim _ (bind (handle _ _ _) _) _ => apply sim_keep; intros; cbv beta iota
    | |- sim _ (bind _ _) _ => eapply sim_bind; [awalk|intros; cbv beta iota]
    | |- sim _ (ret _) _ => apply sim_ret
    end.
  Ltac opened :=
    repeat match goal with
    | H : close _ _ |- _ => let h1 := fresh "Ht" in let h2 := fresh "Hs" in let h3 := fresh "Ho" in destruct H as (h1 & h2 & h3)
    | H : close_by _ _ _ _ |- _ => let h1 := fresh "Ht" in let h3 := fresh "Ho" in destruct H as (h1 & h3)
    | H : Forall2 close _ _ |- _ => apply close_toks in H; let h1 := fresh "Ht" in let h3 := fresh "Ho" in destruct H as (h1 & h3)
    | H : Forall2 (close_by _ _) _ _ |- _ => apply by_toks in H; let h1 := fresh "Ht" in let h3 := fresh "Ho" in destruct H as (h1 & h3)
    | H : both close _ _ |- _ => apply opt_close in H; let h1 := fresh "Ht" in let h3 := fresh "Ho" in destruct H as (h1 & h3)
    end.
  Ltac piece := first [assumption | apply mouter | apply minner | apply mpaths | apply same_map | apply mgroup | apply mapp | apply mflat | apply mpunct | apply mopt
    | apply mqi | apply mqp | apply moved_map | apply Forall2_nil | apply mv_group | apply Forall2_cons | constructor].
  Ltac tcbn := cbn [opt_toks etoks stoks itoks iitoks titoks armtoks fieldtoks vtoks]; try fold etoks; try fold stoks; try fold itoks; try fold iitoks; try fold titoks; try fold armtoks; try fold fieldtoks.
  Ltac ofin := cbn [option_map expr_map stmt_map item_map impl_map trait_map arm_map field_map ev_map];
    rewrite ?attrs_stay, ?toks_stay, ?path_stay, ?sig_stay, ?ret_stay, ?hook_stay;
    repeat match goal with H : _ = ?r |- _ => match r with context[expr_map g false] => rewrite H; clear H | context[stmt_map g false] => rewrite H; clear H
       | context[item_map g false] => rewrite H; clear H | context[impl_map g false] => rewrite H; clear H | context[trait_map g false] => rewrite H; clear H
       | context[arm_map g false] => rewrite H; clear H | context[field_map g false] => rewrite H; clear H | context[mac_map g false] => rewrite H; clear H
       | context[ev_map g false] => rewrite H; clear H end end; try reflexivity.
  Ltac afin := opened; repeat split; [tcbn; repeat piece | try reflexivity; solve [ofin] ..].

  Lemma sim_moved : (forall x, A_expr x) /\ (forall x, A_stmt x) /\ (forall x, A_item x) /\ (forall x, A_impl x) /\ (forall x, A_trait x) /\
    (forall x, A_arm x) /\ (forall x, A_field x) /\ (forall x, A_mac x) /\ (forall x, A_ev x).
  Proof.
    apply syntax_ind2; intros.
    all: match goal with
         | |- A_stmt _ => intros tk c1
         | |- A_expr _ => intros ov c1
         | _ => intros c1
         end.
    all: try (match goal with |- sim close_mac _ _ => fail 1 | _ => idtac end; agcbn).
    all: try solve [ago; afin].
    - (* assignment *)
      ago. pose proof (close_map l) as Hl. afin.
    - (* call *)
      ago. opened. split; [tcbn; repeat piece|]. split; [|ofin].
      match goal with Hs : shape_of ?y = shape_map g (shape_of ?x) |- _ => clear - Hs; unfold shape_of in *; cbn [seen]; destruct (seen x), (seen y); try discriminate; try reflexivity;
        repeat match type of Hs with context[match seen ?f with _ => _ end] => destruct (seen f); try discriminate; try reflexivity end; cbn [shape_map] in *; congruence end.
    - (* closure *)
      apply sim_keep. intros a' s c'. cbv beta iota.
      replace (update_fn_info (ctx_map g c') (closure_info_new (ret_map g out) (etoks (EClosure (map (attr_map g) a') (toks_map g hd) (ret_map g out) (EBlock [] [] call_site []))) (cx_fn (ctx_map g c'))))
        with (ctx_map g (update_fn_info c' (closure_info_new out (etoks (EClosure a' hd out (EBlock [] [] call_site []))) (cx_fn c')))).
      2: { rewrite <- fn_map. f_equal. unfold ctx_map. cbn [cx_fn]. rewrite <- closure_map. f_equal. rewrite <- (proj1 printed). cbn [expr_map map]. rewrite Hg. reflexivity. }
      eapply (sim_bind close).
      + destruct body; try (apply (sim_tail FnBlockTail); assumption). cbn [stmts_of expr_map] in *. ago. afin.
      + intros x y Hxy. apply sim_ret. afin.
    - (* return *)
      apply sim_keep. intros a' s c'. cbv beta iota. destruct e as [e0|]; cbn [option_map]; [|apply sim_ret, (close_map (EReturn a' sp None))]. cbn [optP] in *.
      eapply sim_bind; [awalk|]. intros x y Hxy. rewrite (check_map c' x y) by apply Hxy. rewrite result_map. destruct (target_call_check c' x) as [t nt].
      destruct (_ || _).
      + eapply (sim_bind (fun x y => close (fst x) (fst y) /\ snd x = snd y)); [|clear Hxy; intros [x' ?] [y' ?] [Hf _]; cbn [fst] in Hf; apply sim_ret; afin].
        replace (etoks (EReturn (map (attr_map g) a') (g sp) (Some (em e0)))) with (toks_map g (etoks (EReturn a' sp (Some e0)))) by (rewrite <- (proj1 printed); reflexivity). apply sim_hook, Hxy.
      + apply sim_ret. afin.
    - (* try *)
      apply sim_keep. intros a' s c'. cbv beta iota. eapply sim_bind; [awalk|]. intros x y Hxy. eapply sim_bind.
      { replace (etoks (ETry (map (attr_map g) a') (em e) (g sp))) with (toks_map g (etoks (ETry a' e sp))) by (rewrite <- (proj1 printed); reflexivity). apply sim_hook, Hxy. }
      intros [x' ?] [y' exc] [Hf Hf2]. cbn [fst snd] in *. subst. apply sim_ret. destruct exc; [|afin].
      destruct Hf as (H1 & H2 & H3). split; [|split].
      + destruct x', y'; exact H1.
      + destruct x', y'; exact H2.
      + destruct x', y'; cbn [expr_map] in H3; try discriminate; try exact H3. cbn [mark_consumed expr_map]. rewrite hook_stay in *. injection H3 as H3 H4. rewrite H4, H3. reflexivity.
    - (* hook *)
      apply sim_ret, (close_map (EHook h orig res)).
    - (* expression statement *)
      destruct semi; cbn [option_map]; [ago; afin|]. destruct (is_target tk); [|ago; afin]. eapply sim_bind; [apply sim_tail; assumption|]. intros x y Hxy. apply sim_ret. afin.
    - (* macro item *)
      destruct name.
      + apply sim_ret. split; [|ofin]. 2: destruct forgets as (_ & _ & _ & _ & _ & _ & _ & Hm & _); rewrite Hm; reflexivity.
        destruct printed as (_ & _ & Hp & _). rewrite <- (Hp (IMacro a (Some s) m semi)) || idtac. change (IMacro (map (attr_map g) a) (Some s) (mac_map g true m) (toks_map g semi)) with (item_map g true (IMacro a (Some s) m semi)).
        rewrite Hp. apply same_map.
      + ago. opened. split; [|ofin]. tcbn. apply mapp; [apply mouter|]. apply mapp; [|apply same_map].
        match goal with H : Forall2 (moved g E) (mtoks ?x) (mtoks ?y) |- _ => destruct x, y; exact H end.
    - (* arm *)
      ago. eapply (sim_bind close); [|intros; apply sim_ret; afin]. destruct body; first [apply (H0 None) | apply (sim_tail BlockTail); assumption].
    - (* field *)
      ago. opened. split; [|ofin]. tcbn. apply mapp; [apply mouter|]. apply mapp; [apply same_map|]. destruct colon; [constructor|]. repeat piece.
    - (* macro call *)
      assert (Hk : close_mac (Mac p d sp ts view) (mac_map g true (Mac p d sp ts view))).
      { destruct printed as (_ & _ & _ & _ & _ & _ & _ & Hp & _), forgets as (_ & _ & _ & _ & _ & _ & _ & Hf & _). split; [rewrite Hp; apply same_map|apply Hf]. }
      destruct view as [l|]; cbn [mac_map walk_mac] in *; fold (walk_evaluable E); change (hook_in_macros (ctx_map g c1)) with (hook_in_macros c1); destruct (negb _); try (apply sim_ret, Hk).
      cbn [optP] in *. ago. opened. split; [|cbn [mac_map]; rewrite path_stay; ofin].
      cbn [mtoks]. apply mapp; [apply mpaths|]. repeat piece.
  Qed.
  Lemma new_map f : core_map g f = f -> ctx_map g (ctx_new f) = ctx_new f.
  Proof. intros H. rewrite <- H at 2. reflexivity. Qed.

  (** * The whole macro *)
  Lemma is_ident_map p n : path_is_ident (path_map g p) n = path_is_ident p n.
  Proof. unfold path_is_ident. rewrite ident_map. reflexivity. Qed.
  Definition root_map (r : root_attr) : root_attr := mk_root (map (path_map g) (ra_traits r)) (ra_flavor r).
  Lemma root_step_map PPs r m : reads_paths_moved g PPs -> root_step PPs (root_map r) (meta_map g m) = rmap root_map (root_step PPs r m).
  Proof.
    intros HP. destruct m as [p|p d ts sp|p v]; cbn [meta_map root_step].
    - rewrite names_map. destruct (flavor_path_of_path p) as [[|x l]|x|x]; reflexivity.
    - rewrite !is_ident_map, HP. destruct (_ || _); [|reflexivity]. destruct (PPs ts) as [l|]; cbn [option_map rmap]; [|reflexivity]. unfold root_map. cbn [ra_traits ra_flavor]. rewrite map_app. reflexivity.
    - destruct v; cbn [value_map]; try reflexivity. rewrite is_ident_map. destruct (path_is_ident p "flavor"); [|reflexivity]. destruct (flavor_path_of_string s); reflexivity.
  Qed.
  Lemma root_loop_map PPs args : reads_paths_moved g PPs -> forall r, root_loop PPs (map (meta_map g) args) (root_map r) = rmap root_map (root_loop PPs args r).
  Proof.
    intros HP. induction args as [|m args IH]; intros r; [reflexivity|]. cbn [map root_loop]. rewrite root_step_map by assumption. destruct (root_step PPs r m); cbn [rmap bindR]; try reflexivity. apply IH.
  Qed.
  Lemma uses_map l : same (flat_map trait_use_toks l) (flat_map trait_use_toks (map (path_map g) l)).
  Proof.
    induction l as [|p l IH]; [constructor|]. cbn [map flat_map]. apply mapp; [|exact IH]. unfold trait_use_toks. cbn [app].
    repeat first [apply mqi | apply mqp | apply mqg | apply mpaths | apply mapp | apply Forall2_nil | apply Forall2_cons].
  Qed.
  Lemma macro_moved PPs args it : reads_paths_moved g PPs ->
    match hooq_impls PPs E args it, hooq_impls PPs E (map (meta_map g) args) (item_map g true it) with
    | Ok ts, Ok ts' => same ts ts'
    | Err x, Err y => x = y
    | Panic x, Panic y => x = y
    | _, _ => False
    end.
  Proof.
    intros HP. unfold hooq_impls, hooq_impls_parts, parse_root. pose proof (root_loop_map PPs args HP (mk_root [] None)) as HL. change (root_map (mk_root [] None)) with (mk_root [] None) in HL. rewrite HL. clear HL.
    destruct (root_loop PPs args (mk_root [] None)) as [r|x|x]; cbn [rmap bindR]; try reflexivity. unfold root_load. cbn [ra_flavor root_map ra_traits].
    destruct (ae_flavor (ev_attr E) _) as [f|x|x] eqn:Ef; cbn [bindR]; try reflexivity. apply HS in Ef. cbn [rc_core rc_traits].
    destruct sim_moved as (_ & _ & HI & _). specialize (HI it (ctx_new f) counter0). rewrite (new_map f Ef) in HI.
    destruct (walk_item E (ctx_new f) it counter0) as [[o n]|x|x], (walk_item E (ctx_new f) (item_map g true it) counter0) as [[o' n']|y|y]; try contradiction; cbn [bindR fst snd]; try exact HI.
    apply mapp; [|apply HI]. assert (H : map (path_map g) (fl_traits f) = fl_traits f) by (rewrite <- Ef at 2; reflexivity).
    replace (map (path_map g) (ra_traits r) ++ fl_traits f) with (map (path_map g) (ra_traits r ++ fl_traits f)) by (rewrite map_app, H; reflexivity). apply uses_map.
  Qed.
End Moves.

(** * Flavors have no positions *)
Section Still.
  Variable g : span -> span.
  Hypothesis Hg : g call_site = call_site.
  Inductive still : flavor -> Prop := still_intro : forall c subs, core_map g c = c -> Forall (fun nf => still (snd nf)) subs -> still (Flavor c subs).
  Definition stills (st : smap flavor) : Prop := Forall (fun nf => still (snd nf)) st.
  Lemma presets_still ft : stills (preset_flavors ft).
  Proof.
    assert (HF : forall b (l : smap flavor), stills l -> stills (if b : bool then l else [])) by (intros []; [auto|constructor]).
    destruct ft as [cq flg fa fe ft crate].
    assert (Hh : helpers_path crate = (if String.eqb crate "hooq_macros" then qpath ["hooq_macros"] else qpath [crate; "source_excerpt_helpers"])).
    { unfold helpers_path. destruct (String.eqb_spec crate "hooq_macros") as [->|]; reflexivity. }
    unfold preset_flavors. cbn [ft_log ft_anyhow ft_eyre ft_tracing]. repeat (apply Forall_app; split); try apply HF; repeat (apply Forall_cons); try apply Forall_nil; cbn [snd];
    cbn [f_core default_flavor empty_flavor hook_flavor log_flavor tracing_flavor anyhow_flavor eyre_flavor color_eyre_flavor default_core core_with fl_method default_method ft_consume ft_crate];
    unfold log_flavor, tracing_flavor; cbn [map fst snd];
    repeat match goal with |- still _ => constructor | |- Forall _ _ => constructor | |- still (snd _) => cbn [snd] end;
    unfold default_method, default_method_toks, log_method_toks, tracing_method_toks, context_method_toks, preset_prefix, let_expr; cbn [ft_crate]; rewrite ?Hh; clear Hh;
    destruct (String.eqb crate "hooq_macros"), cq; lazy -[call_site]; rewrite ?Hg; reflexivity.
  Qed.
  Lemma under_still f l f' : under f l f' -> still f -> core_map g (f_core f') = f_core f'.
  Proof.
    induction 1 as [f|c subs n h l f Hm Hu IH]; intros Hs; inversion Hs; subst; [assumption|]. apply IH.
    match goal with H : Forall _ subs |- _ => rewrite Forall_forall in H; exact (H _ (mget_in _ _ _ Hm)) end.
  Qed.
  Lemma at_still st p f : at_path st p f -> stills st -> core_map g (f_core f) = f_core f.
  Proof. destruct 1 as [n h l f Hm Hu]. intros Hs. apply (under_still h l f Hu). unfold stills in Hs. rewrite Forall_forall in Hs. exact (Hs _ (mget_in _ _ _ Hm)). Qed.

  Variable te : toml_env.
  (** what is read from hooq.toml has no position in the file of the program *)
  Hypothesis HT : reads_toml_still g te.
  Local Notation PP := (te_path te).
  Local Notation PT := (te_ts te).
  Local Notation PE := (te_expr te).
  Local Notation cq := (ft_consume (te_features te)).
  Lemma apply_still t f c : core_map g f = f -> apply_table PP PT PE cq t f = Ok c -> core_map g c = c.
  Proof.
    destruct HT as (H1 & H2 & H3). intros Hf H. unfold apply_table in H. apply bindR_Ok in H. destruct H as (trs & Ht & H). apply bindR_Ok in H. destruct H as (m & Hm & H).
    apply bindR_Ok in H. destruct H as (w & _ & H). apply bindR_Ok in H. destruct H as (bs & Hb & H). injection H as <-. unfold core_map. cbn.
    assert (E : method_map g (fl_method f) = fl_method f /\ values_map g (fl_bindings f) = fl_bindings f) by (split; rewrite <- Hf at 2; reflexivity). destruct E as [E1 E2].
    f_equal.
    - apply mapR_ok in Ht. clear - Ht H1. induction Ht as [|s p l l' Hp _ IH]; [reflexivity|]. cbn [map]. unfold opt_res in Hp. destruct (PP s) eqn:Es; [|discriminate]. injection Hp as <-.
      rewrite (H1 _ _ Es), IH. reflexivity.
    - destruct (tb_method t) as [s|]; [|injection Hm as <-; exact E1]. unfold opt_res in Hm. destruct (PT s) as [ts|] eqn:Es; [|discriminate]. injection Hm as <-.
      rewrite <- read_method_map, (H2 _ _ Es). reflexivity.
    - assert (Eb : values_map g bs = bs).
      { apply mapR_ok in Hb. clear - Hb H3. induction Hb as [|kv kt l l' Hp _ IH]; [reflexivity|]. change (values_map g (kt :: l')) with ((fst kt, toks_map g (snd kt)) :: values_map g l').
        unfold opt_res in Hp. destruct (PE (snd kv)) eqn:Es; [|discriminate]. injection Hp as <-. cbn [fst snd]. rewrite (H3 _ _ Es), IH. reflexivity. }
      rewrite <- mextend_map, E2, Eb. reflexivity.
  Qed.
  Lemma start_still n base fs : still base -> stills fs -> still (start n base fs).
  Proof. intros Hb Hf. unfold start. destruct (mget n fs) as [f|] eqn:E; [|exact Hb]. unfold stills in Hf. rewrite Forall_forall in Hf. exact (Hf _ (mget_in _ _ _ E)). Qed.
  Lemma inner_still l : Forall (fun ns => forall n base fs r, still base -> stills fs -> update_table PP PT PE cq (snd ns) n base fs = Ok r -> stills r) l ->
    forall base fs r, still base -> stills fs -> update_flavor_inner PP PT PE cq l base fs = Ok r -> stills r.
  Proof.
    induction 1 as [|[n s] l Hx _ IH]; intros base fs r Hb Hf H; [injection H as <-; exact Hf|]. cbn [update_flavor_inner] in H.
    apply bindR_Ok in H. destruct H as (a & H1 & H2). eapply IH; [exact Hb| |exact H2]. eapply (Hx n base fs); eassumption.
  Qed.
  Lemma table_still : forall T n base fs r, still base -> stills fs -> update_table PP PT PE cq T n base fs = Ok r -> stills r.
  Proof.
    induction T as [t subs IH] using ftable_ind'. intros n base fs r Hb Hf H. apply update_table_ok in H.
    destruct H as (_ & _ & c & s & Hc & Hs & ->). pose proof (start_still n base fs Hb Hf) as Hst. destruct (start n base fs) as [c0 s0]. inversion Hst as [? ? Hc0 Hs0]; subst. cbn [f_core f_subs] in *.
    apply (apply_still _ _ _ Hc0) in Hc. apply forall_minsert; [|exact Hf]. constructor; [exact Hc|]. eapply inner_still; [exact IH|constructor; [exact Hc|exact Hs0]|exact Hs0|exact Hs].
  Qed.
  Lemma build_still t st : build_store te t = Ok st -> stills st.
  Proof.
    apply inner_still; [apply Forall_forall; intros x _; apply table_still| |apply presets_still].
    pose proof (presets_still (te_features te)) as H. inversion H; assumption.
  Qed.
  Lemma lookup_still dir d st p f : flavor_lookup te dir d st p = Ok f -> core_map g f = f.
  Proof.
    unfold flavor_lookup. intros H. apply bindR_Ok in H. destruct H as (fs & Hw & H). apply bindR_Ok in H. destruct H as (fl & Hp & H). injection H as <-.
    unfold get_flavor in Hp. destruct (get_flavor_inner fs p) as [fl'|] eqn:El; [|discriminate]. injection Hp as <-. apply lookup_at in El. apply (at_still _ _ _ El).
    unfold with_hooq_toml in Hw. destruct (load te dir d st) as [[[t|]|e|m] st']; cbn [fst] in Hw; try discriminate.
    - destruct (build_store te t) eqn:Eb; try discriminate. injection Hw as <-. apply (build_still _ _ Eb).
    - injection Hw as <-. apply presets_still.
  Qed.
End Still.
