(** C24-C30: flavors, hooq.toml, root attribute (the walker part of C27 is in Properties_Walker.v).  *)
From Coq Require Import String Ascii Bool Arith Lia Permutation List.
From Verif Require Import Base Tokens Method Paths Context Flavor Attrs Syntax Walker TomlStore RootAttr
  FlavorSpec FlavorNameProofs FlavorTomlProofs FlavorStoreProofs.
Import ListNotations.
Open Scope string_scope.
Open Scope list_scope.

(** example parsers: a string is one identifier; the empty string does not parse *)
Definition ex_pp (s : string) : option path := if String.eqb s "" then None else Some (mk_path false [mk_seg s [] call_site]).
Definition ex_pt (s : string) : option (list tt) := if String.eqb s "" then None else Some [qi s].
Definition ex_ft : features := mk_features false true true false false "hooq".
Definition tc0 : tcore := mk_tcore [] None None None None None None [].
(** [[base] tail_expr_idents = ["Err", "!Ok"]; bindings.a = "one"; bindings.b = "two"]
    [[base.sub] method = "m"; bindings.b = "three"; hook_targets = ["?"]]
    [[log.error] result_types = ["R"]] *)
Definition ex_base : tcore := mk_tcore ["T"] None None (Some ["Err"; "!Ok"]) None None None [("a", "one"); ("b", "two")].
Definition ex_sub : tcore := mk_tcore [] (Some "m") (Some ["?"]) None None None None [("b", "three")].
Definition ex_err : tcore := mk_tcore [] None None None None (Some ["R"]) None [].
Definition ex_doc : smap ftable :=
  [("base", FTable ex_base [("sub", FTable ex_sub [])]); ("log", FTable tc0 [("error", FTable ex_err [])])].
Definition ex_doc' : smap ftable :=
  [("log", FTable tc0 [("error", FTable ex_err [])]);
   ("base", FTable (mk_tcore ["T"] None None (Some ["Err"; "!Ok"]) None None None [("b", "two"); ("a", "one")]) [("sub", FTable ex_sub [])])].
Definition ex_te : toml_env := mk_toml_env ex_ft ex_pp ex_pt ex_pt.
Lemma ex_doc_wf : wf_doc ex_doc.
Proof. repeat first [split | constructor]; simpl; intuition discriminate. Qed.
Definition ex_store : smap flavor := match build_store ex_te ex_doc with Ok s => s | _ => [] end.

(** ** C24 *)
Section C24.
  Variables (PP : string -> option path) (PT PE : string -> option (list tt)) (consume : bool) (ft : features).
  Notation load_doc := (store_try_from PP PT PE consume ft).
  Notation settled := (settled PT PE consume).

  (** a table for a flavor that exists already.  Missing: trait_uses (see C24_traits_refuted) *)
  Theorem C24_existing_partial : forall d st p t f, wf_doc d -> load_doc d = Ok st -> table_at d p t ->
    at_path (preset_flavors ft) p f -> exists f', at_path st p f' /\ settled t (f_core f) (f_core f').
  Proof.
    intros d st p t f Hw H Ht Hf. destruct p as [|n q _] using rev_ind; [inversion Hf|]. destruct q as [|x q].
    - destruct (top_settled _ _ _ _ d _ _ st n t Hw H Ht) as (f' & H1 & H2 & _). exists f'. split; [exact H1|].
      unfold start in H2. inversion Hf as [? g ? ? Hm Hu]; subst. inversion Hu; subst. rewrite Hm in H2. exact H2.
    - destruct (sub_settled _ _ _ _ (x :: q) d _ _ st n t ltac:(discriminate) Hw H Ht) as (fq & fp & _ & H2 & _ & H3).
      exists fp. split; [exact H2|]. rewrite (at_start (x :: q) _ (default_flavor ft) n f ltac:(discriminate) Hf) in H3. exact H3.
  Qed.
  (** a new flavor at the top starts from the built-in defaults *)
  Theorem C24_new_top_partial : forall d st n t, wf_doc d -> load_doc d = Ok st -> table_at d [n] t ->
    (forall f, ~ at_path (preset_flavors ft) [n] f) ->
    exists f', at_path st [n] f' /\ settled t (f_core (default_flavor ft)) (f_core f').
  Proof.
    intros d st n t Hw H Ht Hno. destruct (top_settled _ _ _ _ d _ _ st n t Hw H Ht) as (f' & H1 & H2 & _). exists f'. split; [exact H1|].
    unfold start in H2. destruct (mget n (preset_flavors ft)) as [g|] eqn:E; [|exact H2]. exfalso. apply (Hno g). econstructor; [exact E|constructor].
  Qed.
  (** a new sub-flavor starts from its parent; missing: trait_uses, and names copied from a preset's own sub-flavors
      (see C24_copied_refuted) *)
  Theorem C24_new_sub_partial : forall d st q n t, q <> [] -> wf_doc d -> load_doc d = Ok st -> table_at d (q ++ [n]) t ->
    mget n (start_top (preset_flavors ft) (default_flavor ft) q) = None ->
    exists fq f', at_path st q fq /\ at_path st (q ++ [n]) f' /\ settled t (f_core fq) (f_core f').
  Proof.
    intros d st q n t Hq Hw H Ht Hno. destruct (sub_settled _ _ _ _ q d _ _ st n t Hq Hw H Ht) as (fq & fp & H1 & H2 & _ & H3).
    rewrite Hno in H3. eauto.
  Qed.
  (** in particular below a top-level name that is not a preset *)
  Theorem C24_new_tree_partial : forall d st x q n t, wf_doc d -> load_doc d = Ok st -> table_at d (x :: q ++ [n]) t ->
    (forall f, ~ at_path (preset_flavors ft) [x] f) ->
    exists fq f', at_path st (x :: q) fq /\ at_path st (x :: q ++ [n]) f' /\ settled t (f_core fq) (f_core f').
  Proof.
    intros d st x q n t Hw H Ht Hno. apply (C24_new_sub_partial d st (x :: q) n t); try assumption; [discriminate|].
    assert (E : mget x (preset_flavors ft) = None).
    { destruct (mget x (preset_flavors ft)) as [g|] eqn:E; [|reflexivity]. exfalso. apply (Hno g). econstructor; [exact E|constructor]. }
    cbn [start_top]. rewrite E. clear. change (f_subs (default_flavor ft)) with (@nil (string * flavor)).
    induction q as [|y q IH]; [reflexivity|]. exact IH.
  Qed.
  (** a preset without a table keeps all its settings *)
  Theorem C24_untouched : forall d st p f, wf_doc d -> load_doc d = Ok st -> at_path (preset_flavors ft) p f ->
    ~ (exists t, table_at d p t) -> exists f', at_path st p f' /\ f_core f' = f_core f.
  Proof.
    intros d st p f Hw H Hf Hno. destruct (existing_kept _ _ _ _ p d _ _ st f Hw H Hf) as (f' & Hf'). exists f'. split; [exact Hf'|].
    destruct p as [|n q _] using rev_ind; [inversion Hf|].
    destruct (no_table_kept _ _ _ _ q d _ _ st n f' Hw H Hf' Hno) as (g & Hg & E). rewrite E. destruct q as [|x q].
    - inversion Hf as [? g' ? ? Hm Hu]; subst. inversion Hu; subst. rewrite Hm in Hg. injection Hg as ->. reflexivity.
    - rewrite (at_start (x :: q) _ (default_flavor ft) n f ltac:(discriminate) Hf) in Hg. injection Hg as ->. reflexivity.
  Qed.
  (** trait_uses are those of the table itself, whatever the flavor had before *)
  Theorem C24_traits : forall d st p t, wf_doc d -> load_doc d = Ok st -> table_at d p t ->
    exists f', at_path st p f' /\ map Some (fl_traits (f_core f')) = map PP (tb_traits t).
  Proof.
    intros d st p t Hw H Ht. destruct p as [|n q _] using rev_ind; [inversion Ht|]. destruct q as [|x q].
    - destruct (top_settled _ _ _ _ d _ _ st n t Hw H Ht) as (f' & H1 & _ & H2). eauto.
    - destruct (sub_settled _ _ _ _ (x :: q) d _ _ st n t ltac:(discriminate) Hw H Ht) as (fq & fp & _ & H2 & H3 & _). eauto.
  Qed.
End C24.
Print Assumptions C24_existing_partial.
Print Assumptions C24_new_top_partial.
Print Assumptions C24_new_sub_partial.
Print Assumptions C24_new_tree_partial.
Print Assumptions C24_untouched.
Print Assumptions C24_traits.

(** trait_uses that the table does not mention are lost: [[anyhow]] with any setting drops [anyhow::Context] *)
Theorem C24_traits_refuted : exists PP PT PE consume ft d st p t f f', wf_doc d /\ store_try_from PP PT PE consume ft d = Ok st /\
  table_at d p t /\ tb_traits t = [] /\ at_path (preset_flavors ft) p f /\ at_path st p f' /\ fl_traits (f_core f') <> fl_traits (f_core f).
Proof.
  exists ex_pp, ex_pt, ex_pt, false, ex_ft, [("anyhow", FTable tc0 [])].
  eexists. exists ["anyhow"], tc0, (anyhow_flavor ex_ft).
  eexists. split; [repeat first [split | constructor]; simpl; intuition|]. split; [vm_compute; reflexivity|].
  split; [econstructor; reflexivity|]. split; [reflexivity|]. split; [econstructor; [reflexivity|constructor]|].
  split; [econstructor; [vm_compute; reflexivity|constructor]|]. vm_compute. discriminate.
Qed.
Print Assumptions C24_traits_refuted.
(** [[log.x] method = "m"] [[log.x.error]]: log::x::error is new, but starts from log::error, not from its parent log::x *)
Theorem C24_copied_refuted : exists PP PT PE consume ft d st q n t fq f', wf_doc d /\ store_try_from PP PT PE consume ft d = Ok st /\
  table_at d (q ++ [n]) t /\ (forall f, ~ at_path (preset_flavors ft) (q ++ [n]) f) /\
  at_path st q fq /\ at_path st (q ++ [n]) f' /\ tb_method t = None /\ fl_method (f_core f') <> fl_method (f_core fq).
Proof.
  exists ex_pp, ex_pt, ex_pt, false, ex_ft, [("log", FTable tc0 [("x", FTable ex_sub [("error", FTable tc0 [])])])].
  eexists. exists ["log"; "x"], "error", tc0. do 2 eexists. split; [repeat first [split | constructor]; simpl; intuition discriminate|].
  split; [vm_compute; reflexivity|]. split; [simpl; do 2 (eapply ta_sub; [reflexivity|]); econstructor; reflexivity|].
  split; [intros f Hf; apply lookup_at in Hf; vm_compute in Hf; discriminate|].
  split; [apply lookup_at; vm_compute; reflexivity|]. split; [apply lookup_at; vm_compute; reflexivity|]. split; [reflexivity|].
  vm_compute. discriminate.
Qed.
Print Assumptions C24_copied_refuted.

Example C24_ex : wf_doc ex_doc /\ build_store ex_te ex_doc = Ok ex_store /\
  table_at ex_doc ["base"; "sub"] ex_sub /\
  match get_flavor ex_store ["base"; "sub"] with
  | Ok f => (fl_tails (f_core f), fl_ignores (f_core f), fl_targets (f_core f), mget "a" (fl_bindings (f_core f)), mget "b" (fl_bindings (f_core f)))
            = (["Err"], ["Ok"], mk_switch true false false, Some [qi "one"], Some [qi "three"])
  | _ => False
  end /\
  match get_flavor ex_store ["log"; "error"] with
  | Ok f => (fl_results (f_core f), mget "level" (fl_bindings (f_core f))) = (["R"], Some (qpath ["log"; "Level"; "Error"]))
  | _ => False
  end.
Proof.
  split; [exact ex_doc_wf|]. split; [vm_compute; reflexivity|]. split; [eapply ta_sub; [reflexivity|econstructor; reflexivity]|].
  split; vm_compute; reflexivity.
Qed.

(** ** C25 *)
Theorem C25_accepted : forall PP PT PE consume ft d d', reordered_doc d d' ->
  (exists st, store_try_from PP PT PE consume ft d = Ok st) -> exists st', store_try_from PP PT PE consume ft d' = Ok st'.
Proof. intros PP PT PE consume ft d d' Hr H. apply doc_accept. apply (reordered_doc_good _ _ _ _ _ Hr). eapply doc_accept, H. Qed.
Print Assumptions C25_accepted.
Theorem C25_same_flavors : forall PP PT PE consume ft d d' st, wf_doc d -> reordered_doc d d' -> store_try_from PP PT PE consume ft d = Ok st ->
  exists st', store_try_from PP PT PE consume ft d' = Ok st' /\ same_store st st'.
Proof. intros. eapply order_independent; eassumption. Qed.
Print Assumptions C25_same_flavors.
(** a document is accepted exactly when every table of it is good: no name is empty or [empty], every string parses *)
Theorem C25_acceptance : forall PP PT PE consume ft d, (exists st, store_try_from PP PT PE consume ft d = Ok st) <-> good_doc PP PT PE d.
Proof. intros. apply doc_accept. Qed.
Print Assumptions C25_acceptance.

Example C25_ex : wf_doc ex_doc /\ reordered_doc ex_doc ex_doc' /\ build_store ex_te ex_doc = Ok ex_store /\ build_store ex_te ex_doc' <> Ok ex_store.
Proof.
  split; [exact ex_doc_wf|]. split; [|split; vm_compute; [reflexivity|discriminate]].
  assert (Rf : forall t, reordered (FTable t []) (FTable t [])).
  { intros t. econstructor; [repeat split; reflexivity|constructor|constructor]. }
  exists (rev ex_doc'). split; [|apply Permutation_sym, Permutation_rev]. simpl. constructor; [split; [reflexivity|]|constructor; [split; [reflexivity|]|constructor]].
  - econstructor; [repeat split; simpl; apply perm_swap| |apply Permutation_refl]. constructor; [|constructor]. split; [reflexivity|apply Rf].
  - econstructor; [repeat split; reflexivity| |apply Permutation_refl]. constructor; [|constructor]. split; [reflexivity|apply Rf].
Qed.

(** ** C26 *)
Theorem C26_checked : forall te h dir t t', mget dir (after_history te h []) = Some t -> wf_doc t -> reordered_doc t t' ->
  exists fs fs', build_store te t = Ok fs /\ build_store te t' = Ok fs' /\ same_store fs fs'.
Proof. exact cached_builds. Qed.
Print Assumptions C26_checked.
Theorem C26_no_panic : forall te h dir d m, fst (with_hooq_toml te dir d (after_history te h [])) <> Panic m.
Proof. exact cache_no_panic. Qed.
Print Assumptions C26_no_panic.
(** the [Panic] is not vacuous: with a store holding an unchecked document it is reached *)
Example C26_ex :
  (exists m, fst (with_hooq_toml ex_te "p" DiskAbsent [("p", [("", FTable tc0 [])])]) = Panic m) /\
  mget "p" (after_history ex_te [("q", DiskToml ex_doc'); ("p", DiskToml [("", FTable tc0 [])]); ("p", DiskToml ex_doc)] []) = Some ex_doc.
Proof. split; [eexists; vm_compute; reflexivity|vm_compute; reflexivity]. Qed.

(** ** C27, hooq.toml part *)
Theorem C27_not_redefined : forall PP PT PE consume ft d st, wf_doc d -> store_try_from PP PT PE consume ft d = Ok st ->
  get_flavor st ["empty"] = Ok (empty_flavor ft).
Proof. intros. apply get_flavor_ok. eapply empty_kept; eassumption. Qed.
Print Assumptions C27_not_redefined.
Theorem C27_rejected : forall PP PT PE consume ft d p t, table_at d p t -> In "empty" p ->
  ~ exists st, store_try_from PP PT PE consume ft d = Ok st.
Proof. exact empty_rejected. Qed.
Print Assumptions C27_rejected.
Example C27_ex : get_flavor ex_store ["empty"] = Ok (empty_flavor ex_ft) /\ table_at [("log", FTable tc0 [("empty", FTable tc0 [])])] ["log"; "empty"] tc0.
Proof. split; [vm_compute; reflexivity|eapply ta_sub; [reflexivity|econstructor; reflexivity]]. Qed.

(** ** C28 *)
(** every string splits in one way; it names the path of its pieces iff none of them is empty *)
Theorem C28_string : forall s, exists l, splits l s /\ (forall l', splits l' s -> l' = l) /\
  (forall r, flavor_path_of_string s = Ok r <-> r = l /\ Forall (fun n => n <> "") l) /\ (In "" l -> flavor_path_of_string s = Err ErrFlavorName).
Proof.
  intros s. exists (flat_map (fun s => split_cc s "") (split_dot s "")). split; [apply splits_exact; reflexivity|].
  split; [intros l' H; apply splits_exact in H; congruence|]. split.
  - intros r. rewrite string_path_splits, splits_exact. split; [intros [<- H]; auto|intros [-> H]; auto].
  - intros H. eapply string_path_bad; [apply splits_exact; reflexivity|exact H].
Qed.
Print Assumptions C28_string.
(** whatever the names, an accepted string is its names with separators between them *)
Theorem C28_string_sound : forall s l, flavor_path_of_string s = Ok l -> joined l s /\ Forall (fun n => n <> "") l.
Proof. exact string_path_sound. Qed.
Print Assumptions C28_string_sound.
(** names without dots and colons can be joined with any of the two separators *)
Theorem C28_string_joined : forall l s, joined l s -> Forall simple_name l -> splits l s.
Proof. exact joined_splits. Qed.
Print Assumptions C28_string_joined.
Example C28_ex_odd : splits ["a:b"; ":c"] "a:b:::c" /\ flavor_path_of_string "a:b:::c" = Ok ["a:b"; ":c"] /\
  splits [""; "a"; "b:"] "::a.b:" /\ flavor_path_of_string "::a.b:" = Err ErrFlavorName.
Proof. split; [apply splits_exact; reflexivity|]. split; [reflexivity|]. split; [apply splits_exact; reflexivity|reflexivity]. Qed.
(** the Rust path [a::b::c] and the strings [a.b.c], [a::b.c], ... denote the same flavor *)
Theorem C28_same : forall p s, Forall (fun g => seg_args g = [] /\ seg_id g <> "" /\ simple_name (seg_id g)) (p_segs p) -> joined (p_idents p) s ->
  flavor_path_of_path p = Ok (p_idents p) /\ flavor_path_of_string s = Ok (p_idents p).
Proof.
  intros p s HF Hj. split.
  - apply path_path. split; [reflexivity|]. eapply Forall_impl; [|exact HF]. intros a (H1 & H2 & _). auto.
  - apply string_path_complete; [exact Hj| |]; unfold p_idents; apply Forall_map; (eapply Forall_impl; [|exact HF]); intros a (_ & H2 & H3); assumption.
Qed.
Print Assumptions C28_same.
Theorem C28_lookup : forall st p, (forall f, get_flavor st p = Ok f <-> at_path st p f) /\
  ((forall f, ~ at_path st p f) <-> get_flavor st p = Err (ErrFlavorNotFound p (all_flavor_names st))).
Proof.
  intros st p. split; [intros f; apply get_flavor_ok|]. rewrite <- get_flavor_err. split; [intros H (f & Hf); exact (H f Hf)|intros H f Hf; apply H; eauto].
Qed.
Print Assumptions C28_lookup.
(** the names in that error are those of the existing flavors *)
Theorem C28_names : forall te d st, build_store te d = Ok st -> forall s,
  In s (all_flavor_names st) <-> exists p f, at_path st p f /\ s = cc_join p.
Proof. intros te d st H. apply names_spec. eapply store_wf, H. Qed.
Print Assumptions C28_names.
Example C28_ex :
  joined ["a"; "b"; "c"] "a::b.c" /\ joined ["a"; ""] "a." /\ flavor_path_of_string "a::b.c" = Ok ["a"; "b"; "c"] /\
  flavor_path_of_string "a." = Err ErrFlavorName /\
  all_flavor_names ex_store = ["default"; "empty"; "hook"; "log"; "log::error"; "log::warn"; "log::info"; "log::debug"; "log::trace"; "anyhow"; "base"; "base::sub"].
Proof.
  split; [apply (j_more "a" Colons), (j_more "b" Dot), j_one|]. split; [apply (j_more "a" Dot), j_one|]. vm_compute. auto.
Qed.

(** ** C29 *)
Theorem C29_expansion : forall PPs E args fs ts f it, Forall2 arg_flavor args fs -> Forall2 (arg_traits PPs) args ts ->
  ae_flavor (ev_attr E) (match last_some fs with Some l => l | None => ["default"] end) = Ok f ->
  hooq_impls PPs E args it =
    match walk_item E (ctx_new f) it counter0 with
    | Ok (it', _) => Ok (flat_map use_stmt (concat ts ++ fl_traits f) ++ itoks it')
    | Err e => Err e
    | Panic m => Panic m
    end.
Proof.
  intros PPs E args fs ts f it H1 H2 Hf. unfold hooq_impls, hooq_impls_parts, parse_root.
  rewrite (root_loop_ok PPs args fs ts H1 H2). cbn [bindR ra_traits ra_flavor app]. unfold root_load. cbn [ra_traits ra_flavor].
  assert (E1 : match last_some fs with Some x => Some x | None => None end = last_some fs) by (destruct (last_some fs); reflexivity).
  rewrite E1, Hf. cbn [bindR rc_core rc_traits]. destruct (walk_item E (ctx_new f) it counter0) as [[it' c]|e|m]; cbn [bindR fst snd]; try reflexivity.
Qed.
Print Assumptions C29_expansion.
(** any other argument is an error *)
Theorem C29_forms : forall PPs E args it out, hooq_impls PPs E args it = Ok out -> Forall (arg_form PPs) args.
Proof.
  intros PPs E args it out H. unfold hooq_impls in H. destruct (hooq_impls_parts PPs E args it) as [r| |] eqn:Ep; try discriminate.
  unfold hooq_impls_parts in Ep. destruct (parse_root PPs args) as [ra| |] eqn:Er; try discriminate. eapply root_loop_forms, Er.
Qed.
Print Assumptions C29_forms.

Definition seg1 (s : string) : seg := mk_seg s [] call_site.
Definition ex_args : list meta :=
  [MPath (mk_path false [seg1 "log"]); MList (mk_path false [seg1 "trait_use"]) Parenth [qi "T"] call_site;
   MNameValue (mk_path false [seg1 "flavor"]) (VStr "base.sub" call_site)].
Definition ex_pps (ts : list tt) : option (list path) := match ts with [TIdent s _] => Some [mk_path false [seg1 s]] | _ => None end.
Definition ex_env : env := mk_env
  (mk_attr_env false (fun p => match get_flavor ex_store p with Ok f => Ok (f_core f) | Err e => Err e | Panic m => Panic m end) (fun _ => None))
  (fun ts => Some (EVerbatim ts)) (fun _ => "").
(** the item: [fn g() -> R { x ? }] *)
Definition ex_item : item :=
  IFn [] [] (mk_sig "g" (RetPath (mk_path false [seg1 "R"])) [qi "fn"; qi "g"]) call_site
    [SExpr (ETry [] (EPath [] (mk_path false [seg1 "x"])) call_site) None].
Example C29_ex : exists fs ts f, Forall2 arg_flavor ex_args fs /\ Forall2 (arg_traits ex_pps) ex_args ts /\
  last_some fs = Some ["base"; "sub"] /\ ae_flavor (ev_attr ex_env) ["base"; "sub"] = Ok f /\
  hooq_impls ex_pps ex_env ex_args ex_item =
    Ok ([qp "#"; qg Bracket [qi "allow"; qg Parenth [qi "unused"]]; qi "use"; qi "T"; qi "as"; qi "_"; qp ";"] ++
        [qi "fn"; qi "g"; TGroup Brace [qi "m"; qp "?"] call_site]).
Proof.
  exists [Some ["log"]; None; Some ["base"; "sub"]], [[]; [mk_path false [seg1 "T"]]; []]. eexists.
  split; [|split; [|split; [reflexivity|split; [vm_compute; reflexivity|vm_compute; reflexivity]]]].
  - constructor; [|constructor; [|constructor; [|constructor]]].
    + apply (af_path (mk_path false [seg1 "log"])); [|discriminate]. repeat constructor; discriminate.
    + constructor.
    + apply af_named; try reflexivity. constructor; [apply splits_exact; reflexivity|].
      repeat constructor; simpl; intuition discriminate.
  - constructor; [|constructor; [|constructor; [|constructor]]].
    + constructor.
    + apply at_uses; [now left|reflexivity|reflexivity].
    + constructor.
Qed.

(** ** C30 *)
Theorem C30_cache : forall te h dir d, outcome te h dir d (fst (with_hooq_toml te dir d (after_history te h []))).
Proof. exact cache_outcome. Qed.
Print Assumptions C30_cache.
Theorem C30_isolated : forall te h dir d,
  fst (with_hooq_toml te dir d (after_history te h [])) =
  fst (with_hooq_toml te dir d (after_history te (filter (fun e => String.eqb (fst e) dir) h) [])).
Proof. exact cache_isolated. Qed.
Print Assumptions C30_isolated.
Example C30_ex :
  let h := [("p", DiskAbsent); ("p", DiskNotToml); ("q", DiskToml []); ("p", DiskToml ex_doc); ("p", DiskAbsent)] in
  first_good (good ex_te) "p" h ex_doc /\ fst (with_hooq_toml ex_te "p" (DiskToml []) (after_history ex_te h [])) = Ok ex_store /\
  fst (with_hooq_toml ex_te "r" DiskAbsent (after_history ex_te h [])) = Ok (preset_flavors ex_ft).
Proof.
  split; [|split; vm_compute; reflexivity]. simpl. right. split; [intros [H _]; discriminate|]. left. split; [reflexivity|]. split; [|reflexivity].
  apply build_good. eexists. vm_compute. reflexivity.
Qed.
