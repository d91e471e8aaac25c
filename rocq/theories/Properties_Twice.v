(** Property C64: an item that is expanded again.

    [#[hooq]] on a function within a module that has [#[hooq]] too stays on the function (it is no attribute of the form [hooq::..]), so the compiler expands the function once more.  *)
From Coq Require Import String Ascii Bool Arith Relations List.
From Verif Require Import Base Tokens Method Paths Context Flavor Attrs Syntax Render Walker RootAttr AttrSpec SiteSpec ProgSpec SettingSpec WalkSpec WalkProofs MeaningSpec MeaningProofs RunSpec RunProofs WalkExamples Properties_Attrs Properties_Scope Properties_Meaning.
From Verif Require Properties_Print.
Import ListNotations.
Open Scope string_scope.
Open Scope list_scope.

(** one expansion of a function: the bodies before and after.  Attributes, environments and flavors may differ from one expansion to the next; what was printed is read as it was.  *)
Definition once (ms : list string) (b b' : list stmt) : Prop := exists E f a vis s sp out a',
  expands E f (IFn a vis s sp b) out /\ source (IFn a vis s sp b) /\ calls_only ms out /\ item_actual out = IFn a' vis s sp b'.
(** any number of them *)
Definition repeatedly (ms : list string) : list stmt -> list stmt -> Prop := clos_refl_trans _ (once ms).

Lemma once_upto st n lib ms b b' w : forgets st -> blind st lib -> incl ms passing -> (forall m, In m ms -> m = "inspect_err" \/ ctx_free st) -> once ms b b' ->
  same_upto st (run_fn n lib b w) (run_fn n lib b' w).
Proof.
  intros Hst Hl Hm Hf (E & f & a & vis & s & sp & out & a' & H & Hs & Hi & Eo). destruct (run_upto st n lib E f a vis s sp b out w ms Hst Hl Hm Hf H Hs Hi) as (a2 & b2 & E2 & R).
  rewrite Eo in E2. inversion E2; subst. exact R.
Qed.
Lemma repeatedly_upto st n lib ms b b' : forgets st -> blind st lib -> incl ms passing -> (forall m, In m ms -> m = "inspect_err" \/ ctx_free st) -> repeatedly ms b b' ->
  forall w, same_upto st (run_fn n lib b w) (run_fn n lib b' w).
Proof.
  intros Hst Hl Hm Hf H. induction H as [b b' H|b|b b1 b2 _ IH1 _ IH2]; intros w.
  - eapply once_upto; eassumption.
  - split; [reflexivity|apply agree_refl].
  - destruct (IH1 w) as [A1 A2], (IH2 w) as [B1 B2]. split; [congruence|]. eapply agree_trans; eassumption.
Qed.
(** A function that is expanded any number of times with hooks [.inspect_err(f)] does what it did.  *)
Theorem C64 n lib b b' w : repeatedly ["inspect_err"] b b' -> same_run (run_fn n lib b w) (run_fn n lib b' w).
Proof.
  intros H. apply same_exactly. apply (repeatedly_upto exactly n lib ["inspect_err"] b b' forgets_exactly (blind_exactly lib)); [intros m [<-|[]]; simpl; tauto|intros m [<-|[]]; auto|exact H].
Qed.
Print Assumptions C64.
(** with hooks that add contexts as well, up to contexts *)
Theorem C64_context n lib b b' w : blind strip lib -> repeatedly passing b b' -> same_upto strip (run_fn n lib b w) (run_fn n lib b' w).
Proof. intros Hl H. apply (repeatedly_upto strip n lib passing b b' forgets_strip Hl); [intros m Hm; exact Hm|intros m _; right; exact strip_free|exact H]. Qed.
Print Assumptions C64_context.

(** * What is reported changes *)
(** the arguments of the calls of [excerpted_pretty_stringify!] in a text, those within such arguments left out: they are not run *)
Fixpoint shown_in (t : tt) : list (list tt) :=
  match t with
  | TGroup _ ts _ =>
      (fix go (seen : nat) (ts : list tt) : list (list tt) :=
         match ts with
         | [] => []
         | t :: r =>
             match t with
             | TIdent m _ => go (if String.eqb m "excerpted_pretty_stringify" then 1 else 0) r
             | TPunct "!" _ => go (if Nat.eqb seen 1 then 2 else 0) r
             | TGroup _ args _ => (if Nat.eqb seen 2 then [args] else shown_in t) ++ go 0 r
             | _ => go 0 r
             end
         end) 0 ts
  | _ => []
  end.
Definition shown (ts : list tt) : list string := map Properties_Print.text (shown_in (TGroup NoDelim ts call_site)).

(** * A case: *)
(** fn main() -> Result { g()?; Ok(()) } under the preset [default]; a reader for what is rendered, macro calls and closures included *)
Definition xd_fn (b : list stmt) : item := x_fn [] "main" (RetPath (xa_path ["Result"])) b.
Definition xd_b0 : list stmt := [semi (x_try (x_call "g" [])); tail (x_call "Ok" [ETuple [] call_site [] []])].
Fixpoint xd_path (ts : list tt) : list seg * list tt :=
  match ts with TPunct ":" _ :: TPunct ":" _ :: TIdent x sp :: r => let '(l, r) := xd_path r in (mk_seg x [] sp :: l, r) | _ => ([], ts) end.
Fixpoint xd_read (n : nat) (ts : list tt) : option expr :=
  match n with
  | 0 => None
  | S n =>
      let mac ts := match xd_path ts with (l, [TPunct "!" _; TGroup d args sp]) => match xd_read n args with Some e => Some (Mac (mk_path true l) d sp args (Some [VExpr e []])) | None => None end | _ => None end in
      let stmt ts := match ts with
        | TIdent "let" s1 :: TIdent x s2 :: TPunct "=" s3 :: [TLit l s4] => Some (SLocalInit [] [TIdent "let" s1; TIdent x s2; TPunct "=" s3] (ELit [] l s4) [] None [qp ";"])
        | TIdent "let" s1 :: TIdent x s2 :: TPunct "=" s3 :: r => option_map (fun m => SLocalInit [] [TIdent "let" s1; TIdent x s2; TPunct "=" s3] (EMacro [] m) [] None [qp ";"]) (mac r)
        | r => option_map (fun m => Syntax.SMacro [] m [qp ";"]) (mac r)
        end in
      let stmts := fix go (acc ts : list tt) : option (list Syntax.stmt) :=
        match ts with
        | [] => match acc with [] => Some [] | _ => None end
        | TPunct ";" _ :: r => match stmt (rev acc), go [] r with Some s, Some b => Some (s :: b) | _, _ => None end
        | t :: r => go (t :: acc) r
        end in
      match rev ts with
      | [TLit l sp] => Some (ELit [] l sp)
      | TPunct "?" sp :: r => option_map (fun e => ETry [] e sp) (xd_read n (rev r))
      | [TGroup Parenth [] sp; TIdent f sf] => Some (ECall [] (EPath [] (mk_path false [mk_seg f [] sf])) sp [] [])
      | TGroup Parenth [b1; e; b2; TGroup Brace body sb] sp :: TIdent m sm :: TPunct "." sd :: r =>
          match xd_read n (rev r), stmts [] body with
          | Some t, Some b => Some (EMethodCall [] t [TPunct "." sd; TIdent m sm] sp [EClosure [] [b1; e; b2] RetNone (EBlock [] [] sb b)] [])
          | _, _ => None
          end
      | _ => None
      end
  end.
Definition xd_env : env := mk_env xa_env (xd_read 9) (fun _ => "text").
Definition xd_once : item := Eval vm_compute in out_of xd_env xp_core (xd_fn xd_b0).
Definition xd_twice : item := Eval vm_compute in out_of xd_env xp_core (item_actual xd_once).
(** without the closures *)
Fixpoint xd_short (t : tt) : list tt :=
  match t with TGroup Parenth [TPunct "|" _; TIdent _ _; TPunct "|" _; TGroup Brace _ _] _ => [TGroup Parenth [qi "CLOSURE"] call_site] | TGroup d ts _ => [TGroup d (flat_map xd_short ts) call_site] | _ => [t] end.
Lemma xd_calls out : Forall (fun e => match e with EHook h o r => h_consumed h = None /\ exists sp1 sp2 sp3 f, r = EMethodCall [] (actual o) [TPunct "." sp1; TIdent "inspect_err" sp2] sp3 [f] [] /\ observer f | _ => True end) (item_subs out) ->
  calls_only ["inspect_err"] out.
Proof.
  intros H h o r Hin. pose proof (proj1 (Forall_forall _ _) H _ Hin) as (Hn & sp1 & sp2 & sp3 & f & E & O). split; [exact Hn|]. exists "inspect_err", sp1, sp2, sp3, f. split; [left; reflexivity|]. auto.
Qed.
Ltac xd_hooks := apply xd_calls; vm_compute; repeat (apply Forall_cons; [first [exact Logic.I|split; [reflexivity|do 4 eexists; split; [reflexivity|exact Logic.I]]]|]); apply Forall_nil.
Definition xd_b1 : list stmt := Eval vm_compute in match item_actual xd_once with IFn _ _ _ _ b => b | _ => [] end.
Definition xd_b2 : list stmt := Eval vm_compute in match item_actual xd_twice with IFn _ _ _ _ b => b | _ => [] end.
Lemma xd_step b b' out : expands xd_env xp_core (xd_fn b) out -> source (xd_fn b) -> calls_only ["inspect_err"] out -> item_actual out = xd_fn b' -> once ["inspect_err"] b b'.
Proof. intros H Hs Hc E. exists xd_env, xp_core. do 4 eexists. exists out. eexists. repeat (split; [eassumption|]). exact E. Qed.
Lemma xd_step1 : once ["inspect_err"] xd_b0 xd_b1.
Proof. apply (xd_step _ _ xd_once); [eexists; vm_compute; reflexivity|reflexivity| |reflexivity]. xd_hooks. Qed.
Lemma xd_step2 : once ["inspect_err"] xd_b1 xd_b2.
Proof. apply (xd_step _ _ xd_twice); [eexists; vm_compute; reflexivity|reflexivity| |reflexivity]. xd_hooks. Qed.
(** the reader is faithful: what was read for a hook is read from its tokens and prints as they do *)
Definition xd_faithful (e : expr) : bool :=
  match e with EHook _ _ r => match xd_read 9 (etoks r) with Some r' => String.eqb (Properties_Print.text (etoks r')) (Properties_Print.text (etoks r)) | None => false end | _ => true end.
Example C64_ex_reader : forallb xd_faithful (item_subs xd_once ++ item_subs xd_twice) = true /\ length (hooks_of (item_subs xd_twice)) = 2.
Proof. vm_compute. split; reflexivity. Qed.
Example C64_ex : repeatedly ["inspect_err"] xd_b0 xd_b2 /\
  Properties_Print.text (flat_map xd_short (flat_map stoks xd_b1)) = "g ( ) . inspect_err ( CLOSURE ) ? ; Ok ( ( ) ) " /\
  Properties_Print.text (flat_map xd_short (flat_map stoks xd_b2)) = "g ( ) . inspect_err ( CLOSURE ) . inspect_err ( CLOSURE ) ? ; Ok ( ( ) ) " /\
  (forall w, same_run (run_fn 3 (xr_lib "true" VUnit VUnit) xd_b0 w) (run_fn 3 (xr_lib "true" VUnit VUnit) xd_b2 w)).
Proof.
  assert (R : repeatedly ["inspect_err"] xd_b0 xd_b2) by (apply rt_trans with xd_b1; apply rt_step; [exact xd_step1|exact xd_step2]).
  split; [exact R|]. split; [vm_compute; reflexivity|]. split; [vm_compute; reflexivity|]. intros w. apply C64, R.
Qed.
(** the inner [#[hooq]] stays where it is *)
Example C64_ex_attr : let hooq_ := mk_attr false call_site (MPath (xa_path ["hooq"])) in
  let m b := IMod [] [qi "mod"; qi "m"] call_site [x_fn [hooq_] "main" (RetPath (xa_path ["Result"])) b] in
  expands xd_env xp_core (m xd_b0) (out_of xd_env xp_core (m xd_b0)) /\
  match item_actual (out_of xd_env xp_core (m xd_b0)) with IMod _ _ _ [IFn a _ _ _ b] => a = [hooq_] /\ b = xd_b1 | _ => False end.
Proof. cbv zeta. split; [eexists; vm_compute; reflexivity|]. vm_compute. split; reflexivity. Qed.

(** A report of the first expansion shows the source.  After the second expansion no report does, neither the old one nor the new one: the argument of the macro that shows the source is hooked too.  *)
Theorem C64_shown_refuted : exists E f a vis s sp b out a' b' out',
  expands E f (IFn a vis s sp b) out /\ source (IFn a vis s sp b) /\ item_actual out = IFn a' vis s sp b' /\ expands E f (IFn a' vis s sp b') out' /\ source (IFn a' vis s sp b') /\
  shown (itoks out) = [Properties_Print.text (etoks (x_try (x_call "g" [])))] /\ length (shown (itoks out')) = 2 /\ Forall (fun t => ~ In t (shown (itoks out))) (shown (itoks out')).
Proof.
  exists xd_env, xp_core, [], [], (x_sig "main" (RetPath (xa_path ["Result"]))), call_site, xd_b0, xd_once, [], xd_b1, xd_twice.
  split; [eexists; vm_compute; reflexivity|]. split; [reflexivity|]. split; [reflexivity|]. split; [eexists; vm_compute; reflexivity|]. split; [reflexivity|]. split; [vm_compute; reflexivity|]. split; [vm_compute; reflexivity|].
  vm_compute. repeat (constructor; [intros [H|[]]; discriminate H|]). constructor.
Qed.
Print Assumptions C64_shown_refuted.
