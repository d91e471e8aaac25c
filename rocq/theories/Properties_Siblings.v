(** Property C44.  *)
From Coq Require Import String Ascii Bool Arith List.
From Verif Require Import Base Tokens Method Paths Context Flavor Attrs Syntax Render Walker RootAttr RenderSpec AttrSpec SiteSpec ProgSpec SettingSpec SettingProofs WalkSpec HookProofs WalkExamples Properties_Attrs CountSpec CountProofs AlikeSpec AlikeProofs.
Import ListNotations.
Open Scope string_scope.
Open Scope list_scope.

(** * C44: siblings do not interfere *)
(** what becomes of a part is the same in any two programs that have it under the same nodes: the same hooks are applied to the same things with the same settings,
    and the text is the same token by token, except for the numbers in the counts.  The parser of [parse_quote!] is any parser that does not look into string literals.  *)
Theorem C44_same E f it1 out1 it2 out2 fr p p1 p2 : reads_alike E ->
  expands E f it1 out1 -> inside it1 out1 fr p p1 -> expands E f it2 out2 -> inside it2 out2 fr p p2 ->
  Forall2 alike (part_toks p1) (part_toks p2) /\ part_outline p1 = part_outline p2.
Proof. exact (fun HE => alike_inside E HE f it1 out1 it2 out2 fr p p1 p2). Qed.
Print Assumptions C44_same.
(** a module expands to its items expanded each in a module of its own; it expands if they all do *)
Theorem C44_module E f a hd sp l : reads_alike E ->
  (forall out, expands E f (IMod a hd sp l) out -> exists l', out = IMod (foreign a) hd sp l' /\
     Forall2 (fun x x' => exists y, expands E f (IMod a hd sp [x]) (IMod (foreign a) hd sp [y]) /\ Forall2 alike (itoks y) (itoks x') /\ item_outline y = item_outline x') l l') /\
  (l <> [] -> (forall x, In x l -> exists y, expands E f (IMod a hd sp [x]) y) -> exists out, expands E f (IMod a hd sp l) out).
Proof. exact (fun HE => mod_alike E HE f a hd sp l). Qed.
Print Assumptions C44_module.
Theorem C44_impl E f a hd sp l : reads_alike E ->
  (forall out, expands E f (IImpl a hd sp l) out -> exists l', out = IImpl (foreign a) hd sp l' /\
     Forall2 (fun x x' => exists y, expands E f (IImpl a hd sp [x]) (IImpl (foreign a) hd sp [y]) /\ Forall2 alike (iitoks y) (iitoks x') /\ impl_outline y = impl_outline x') l l') /\
  (l <> [] -> (forall x, In x l -> exists y, expands E f (IImpl a hd sp [x]) y) -> exists out, expands E f (IImpl a hd sp l) out).
Proof. exact (fun HE => impl_alike E HE f a hd sp l). Qed.
Print Assumptions C44_impl.
Theorem C44_trait E f a hd sp l : reads_alike E ->
  (forall out, expands E f (ITrait a hd sp l) out -> exists l', out = ITrait (foreign a) hd sp l' /\
     Forall2 (fun x x' => exists y, expands E f (ITrait a hd sp [x]) (ITrait (foreign a) hd sp [y]) /\ Forall2 alike (titoks y) (titoks x') /\ trait_outline y = trait_outline x') l l') /\
  (l <> [] -> (forall x, In x l -> exists y, expands E f (ITrait a hd sp [x]) y) -> exists out, expands E f (ITrait a hd sp l) out).
Proof. exact (fun HE => trait_alike E HE f a hd sp l). Qed.
Print Assumptions C44_trait.
(** what becomes of a part, to the token, is the same in any two programs that have it under the same nodes, unless a template in effect in it mentions a count *)
Theorem C44_same_countless E f it1 out1 it2 out2 fr p p1 p2 :
  expands E f it1 out1 -> source it1 -> inside it1 out1 fr p p1 -> expands E f it2 out2 -> source it2 -> inside it2 out2 fr p p2 ->
  (forall s, In s (part_sites fr p) -> countless_at (ev_attr E) f s) -> part_toks p1 = part_toks p2.
Proof. exact (same_inside E f it1 out1 it2 out2 fr p p1 p2). Qed.
Print Assumptions C44_same_countless.
Theorem C44_module_countless E f a hd sp l : source (IMod a hd sp l) -> (forall s, In s (item_sites [] (IMod a hd sp l)) -> countless_at (ev_attr E) f s) ->
  (forall out, expands E f (IMod a hd sp l) out -> exists l', out = IMod (foreign a) hd sp l' /\
     Forall2 (fun x x' => exists y, expands E f (IMod a hd sp [x]) (IMod (foreign a) hd sp [y]) /\ itoks y = itoks x') l l') /\
  (l <> [] -> (forall x, In x l -> exists y, expands E f (IMod a hd sp [x]) y) -> exists out, expands E f (IMod a hd sp l) out).
Proof. exact (mod_split E f a hd sp l). Qed.
Print Assumptions C44_module_countless.
Theorem C44_impl_countless E f a hd sp l : source (IImpl a hd sp l) -> (forall s, In s (item_sites [] (IImpl a hd sp l)) -> countless_at (ev_attr E) f s) ->
  (forall out, expands E f (IImpl a hd sp l) out -> exists l', out = IImpl (foreign a) hd sp l' /\
     Forall2 (fun x x' => exists y, expands E f (IImpl a hd sp [x]) (IImpl (foreign a) hd sp [y]) /\ iitoks y = iitoks x') l l') /\
  (l <> [] -> (forall x, In x l -> exists y, expands E f (IImpl a hd sp [x]) y) -> exists out, expands E f (IImpl a hd sp l) out).
Proof. exact (impl_split E f a hd sp l). Qed.
Print Assumptions C44_impl_countless.
Theorem C44_trait_countless E f a hd sp l : source (ITrait a hd sp l) -> (forall s, In s (item_sites [] (ITrait a hd sp l)) -> countless_at (ev_attr E) f s) ->
  (forall out, expands E f (ITrait a hd sp l) out -> exists l', out = ITrait (foreign a) hd sp l' /\
     Forall2 (fun x x' => exists y, expands E f (ITrait a hd sp [x]) (ITrait (foreign a) hd sp [y]) /\ titoks y = titoks x') l l') /\
  (l <> [] -> (forall x, In x l -> exists y, expands E f (ITrait a hd sp [x]) y) -> exists out, expands E f (ITrait a hd sp l) out).
Proof. exact (trait_split E f a hd sp l). Qed.
Print Assumptions C44_trait_countless.
(** whatever the parser does: the same positions are hooked, with the same settings; only the number differs *)
Theorem C44_hooks E f it1 out1 it2 out2 s s1 s2 :
  expands E f it1 out1 -> source it1 -> position it1 out1 s s1 -> expands E f it2 out2 -> source it2 -> position it2 out2 s s2 ->
  s_kind s = KTry \/ keeps_form E f (s_target s) ->
  (hooked s1 <-> hooked s2) /\
  forall h1 r1 h2 r2, s_hook s1 = Some (h1, r1) -> s_hook s2 = Some (h2, r2) ->
    h_kind h1 = h_kind h2 /\ h_source h1 = h_source h2 /\ h_consumed h1 = h_consumed h2 /\
    (s_kind s = KTry \/ s_kind s = KReturn -> h_span h1 = h_span h2) /\ exists tr, in_effect f tr (h_ctx h1) /\ in_effect f tr (h_ctx h2).
Proof.
  intros H1 Hs1 Hp1 H2 Hs2 Hp2 Hk. split.
  - destruct (position_cases E f it1 out1 s s1 H1 Hs1 Hp1) as [(tr & Ht & _)|Hu].
    + rewrite (position_rule_source E f it1 out1 s s1 H1 Hs1 Hp1 tr Ht Hk), (position_rule_source E f it2 out2 s s2 H2 Hs2 Hp2 tr Ht Hk). reflexivity.
    + unfold hooked. rewrite (position_unreached E f it1 out1 s s1 H1 Hs1 Hp1 Hu), (position_unreached E f it2 out2 s s2 H2 Hs2 Hp2 Hu). tauto.
  - intros h1 r1 h2 r2 Hh1 Hh2. destruct (hook_trail E f it1 out1 s s1 H1 Hs1 Hp1 h1 r1 Hh1) as (tr & Ht & _).
    destruct (hook_made E f it1 out1 s s1 H1 Hs1 Hp1 tr h1 r1 Ht Hh1) as [K1 E1 P1 S1 C1 _].
    destruct (hook_made E f it2 out2 s s2 H2 Hs2 Hp2 tr h2 r2 Ht Hh2) as [K2 E2 P2 S2 C2 _].
    split; [congruence|]. split; [congruence|]. split; [congruence|]. split; [|eauto]. intros [Hq|Hq]; rewrite Hq in *; congruence.
Qed.
Print Assumptions C44_hooks.
(** mod m { fn f() { a()?; } fn g() { b()?; } } *)
Definition x_f : item := x_fn [] "f" RetNone [semi (x_try (x_call "a" []))].
Definition x_g : item := x_fn [] "g" RetNone [semi (x_try (x_call "b" []))].
Definition x_m (l : list item) : item := IMod [] [qi "mod"; qi "m"] call_site l.
Lemma x_core_countless fr : Forall (fun x => x = FScope \/ x = FAttrs [] \/ exists g, x = FFn g) fr -> forall k t w sp h, countless_at (ev_attr x_env) x_core (mk_site k fr t w sp h).
Proof.
  intros HF k t w sp h tr Ht _ _ m n Hm Hu. cbn [s_frames] in Ht.
  assert (Hall : all_methods x_core tr = [fl_method x_core]).
  { clear -HF Ht. unfold trail in Ht. induction Ht as [|x y fr tr Hxy Ht IH]; [reflexivity|]. inversion HF as [|? ? Hx HF']; subst. specialize (IH HF').
    destruct Hxy as [l es He| | | | |]; try exact IH. destruct Hx as [Hx|[Hx|[g Hx]]]; inversion Hx; subst. inversion He; subst. exact IH. }
  rewrite Hall in Hm. destruct Hm as [<-|[]]. cbn in Hu. repeat match goal with H : uses _ _ |- _ => inversion H; subst; clear H end.
Qed.
Example C44_ex : exists y y', inside (x_m [x_f; x_g]) (out_of x_env x_core (x_m [x_f; x_g])) [FAttrs []] (AnItem x_g) (AnItem y) /\
  inside (x_m [x_g]) (out_of x_env x_core (x_m [x_g])) [FAttrs []] (AnItem x_g) (AnItem y') /\
  expands x_env x_core (x_m [x_f; x_g]) (out_of x_env x_core (x_m [x_f; x_g])) /\ y <> y' /\ itoks y = itoks y' /\
  forall s, In s (part_sites [FAttrs []] (AnItem x_g)) -> countless_at (ev_attr x_env) x_core s.
Proof.
  eexists _, _. split; [eapply (in_mod _ _ _ _ _ _ _ _ _ _ _ 1); [cbn; apply in_here|reflexivity|reflexivity]|].
  split; [eapply (in_mod _ _ _ _ _ _ _ _ _ _ _ 0); [cbn; apply in_here|reflexivity|reflexivity]|]. split; [eexists; vm_compute; reflexivity|].
  split; [intros H; vm_compute in H; discriminate|]. split; [vm_compute; reflexivity|]. intros s Hs. cbn in Hs. destruct Hs as [<-|[]].
  apply x_core_countless. repeat (apply Forall_cons; [eauto|]). apply Forall_nil.
Qed.
(** with [.log($count)] the sibling shows *)
Definition x_counting : fcore :=
  {| fl_traits := []; fl_method := Insert call_site [qi "log"; qg Parenth [qp "$"; qi "count"]] false; fl_targets := mk_switch true true true;
     fl_tails := ["Err"]; fl_ignores := ["Ok"]; fl_results := ["Result"]; fl_macros := true; fl_bindings := [] |}.
Lemma x_reads env str : reads_alike (mk_env env (fun ts => Some (EVerbatim ts)) str).
Proof. intros ts ts' H. split; [exact H|reflexivity]. Qed.
(** a parser that knows [Err(..)] from anything else, and rejects nothing at all *)
Definition x_err_parse (ts : list tt) : option expr :=
  match ts with
  | [] => None
  | [TIdent s _; TGroup Parenth _ _] => if String.eqb s "Err" then Some (x_call "Err" []) else Some (EVerbatim ts)
  | _ => Some (EVerbatim ts)
  end.
Lemma x_reads_calls env str : reads_alike (mk_env env x_err_parse str).
Proof.
  intros ts ts' H. cbn [ev_parse]. destruct H as [|t t' r r' Ht Hr]; [exact I|].
  assert (Hv : Forall2 alike (t :: r) (t' :: r') /\ ShOther = ShOther) by (split; [constructor; assumption|reflexivity]).
  destruct Ht; try exact Hv. destruct Hr as [|u u' r r' Hu Hr]; [exact Hv|].
  destruct Hu as [| | | |d ? ? ? ?]; try exact Hv. destruct d; try exact Hv. destruct Hr as [|w w' r r' Hw Hr]; [|exact Hv].
  cbn [x_err_parse]. destruct (String.eqb s "Err"); [split; [apply same_refl|reflexivity]|exact Hv].
Qed.
Example C44_ex_alike : exists y y', inside (x_m [x_f; x_g]) (out_of x_env x_counting (x_m [x_f; x_g])) [FAttrs []] (AnItem x_g) (AnItem y) /\
  inside (x_m [x_g]) (out_of x_env x_counting (x_m [x_g])) [FAttrs []] (AnItem x_g) (AnItem y') /\ reads_alike x_env /\
  itoks y <> itoks y' /\ Forall2 alike (itoks y) (itoks y') /\ item_outline y = item_outline y'.
Proof.
  eexists _, _. split; [eapply (in_mod _ _ _ _ _ _ _ _ _ _ _ 1); [cbn; apply in_here|reflexivity|reflexivity]|].
  split; [eapply (in_mod _ _ _ _ _ _ _ _ _ _ _ 0); [cbn; apply in_here|reflexivity|reflexivity]|]. split; [apply x_reads|].
  split; [intros H; vm_compute in H; discriminate|].
  assert (H := C44_same x_env x_counting (x_m [x_f; x_g]) (out_of x_env x_counting (x_m [x_f; x_g])) (x_m [x_g]) (out_of x_env x_counting (x_m [x_g])) [FAttrs []] (AnItem x_g)).
  match goal with |- Forall2 _ (itoks ?y) (itoks ?y') /\ _ => specialize (H (AnItem y) (AnItem y')) end. cbn [part_toks part_outline] in H. destruct H as [H1 H2].
  - apply x_reads.
  - eexists; vm_compute; reflexivity.
  - eapply (in_mod _ _ _ _ _ _ _ _ _ _ _ 1); [cbn; apply in_here|reflexivity|reflexivity].
  - eexists; vm_compute; reflexivity.
  - eapply (in_mod _ _ _ _ _ _ _ _ _ _ _ 0); [cbn; apply in_here|reflexivity|reflexivity].
  - split; [exact H1|congruence].
Qed.
Example C44_ex_count : exists y y', inside (x_m [x_f; x_g]) (out_of x_env x_counting (x_m [x_f; x_g])) [FAttrs []] (AnItem x_g) (AnItem y) /\
  inside (x_m [x_g]) (out_of x_env x_counting (x_m [x_g])) [FAttrs []] (AnItem x_g) (AnItem y') /\ itoks y <> itoks y'.
Proof.
  eexists _, _. split; [eapply (in_mod _ _ _ _ _ _ _ _ _ _ _ 1); [cbn; apply in_here|reflexivity|reflexivity]|].
  split; [eapply (in_mod _ _ _ _ _ _ _ _ _ _ _ 0); [cbn; apply in_here|reflexivity|reflexivity]|]. intros H. vm_compute in H. discriminate.
Qed.
