(** Properties of the place a hook reports: C46.

    [h_span h] is the position that [$line], [$column], [$path] and [$file] of the hook [h] stand for ([C01_text]). *)
From Coq Require Import String Ascii Bool Arith Lia List.
From Verif Require Import Base Tokens Method Paths Context Flavor Attrs Syntax Render Walker RenderSpec AttrSpec SiteSpec ProgSpec BareProofs AccountProofs SettingSpec WalkSpec WalkProofs TextSpec ShapeProofs HookProofs PlaceSpec PlaceProofs Properties_Attrs WalkExamples.
Import ListNotations.
Open Scope string_scope.
Open Scope list_scope.

(** * C46: a hook reports the position of its target *)
(** the hook of a [?] reports the position of the [?] *)
Theorem C46_question E f it out s s' h r a v sp : expands E f it out -> source it -> position it out s s' -> s_hook s' = Some (h, r) ->
  s_kind s = KTry -> s_whole s = ETry a v sp -> h_span h = sp.
Proof.
  intros H Hs Hp Hh Hk Hw. destruct (hook_trail E f it out s s' H Hs Hp h r Hh) as (tr & Ht & _). destruct (hook_made E f it out s s' H Hs Hp tr h r Ht Hh) as [_ _ Hq _ _ _].
  rewrite Hk in Hq. destruct (position_shaped it out s s' Hs Hp) as [Hsh _]. rewrite Hk in Hsh. destruct Hsh as (a' & fr & Hsh & _). rewrite Hsh in Hw. inversion Hw; subst. exact Hq.
Qed.
Print Assumptions C46_question.
(** the hook of a [return] reports the position of the keyword *)
Theorem C46_return E f it out s s' h r a v sp : expands E f it out -> source it -> position it out s s' -> s_hook s' = Some (h, r) ->
  s_kind s = KReturn -> s_whole s = EReturn a sp v -> h_span h = sp.
Proof.
  intros H Hs Hp Hh Hk Hw. destruct (hook_trail E f it out s s' H Hs Hp h r Hh) as (tr & Ht & _). destruct (hook_made E f it out s s' H Hs Hp tr h r Ht Hh) as [_ _ Hq _ _ _].
  rewrite Hk in Hq. destruct (position_shaped it out s s' Hs Hp) as [Hsh _]. rewrite Hk in Hsh. destruct Hsh as (a' & fr & Hsh & _). rewrite Hsh in Hw. inversion Hw; subst. exact Hq.
Qed.
Print Assumptions C46_return.
(** the text of both, with that position in the place of the four variables *)
Theorem C46_question_text E f it out s s' tr h r a v sp :
  expands E f it out -> source it -> position it out s s' -> NoDup (keys (fl_bindings f)) -> trail (ev_attr E) (s_frames s) tr -> s_hook s' = Some (h, r) ->
  s_kind s = KTry -> s_whole s = ETry a v sp ->
  exists ts, hook_text (ev_str E) f tr Question (h_count h) (etoks (ETry (foreign a) v sp)) (etoks (s_target s')) sp ts /\ ev_parse E ts = Some r.
Proof.
  intros H Hs Hp Hn Ht Hh Hk Hw. destruct (position_text E f it out s s' H Hs Hp tr h r Hn Ht Hh) as (ts & H1 & H2). exists ts. split; [|exact H2].
  rewrite (C46_question E f it out s s' h r a v sp H Hs Hp Hh Hk Hw), Hk, Hw in H1. exact H1.
Qed.
Print Assumptions C46_question_text.
Theorem C46_return_text E f it out s s' tr h r a v sp :
  expands E f it out -> source it -> position it out s s' -> NoDup (keys (fl_bindings f)) -> trail (ev_attr E) (s_frames s) tr -> s_hook s' = Some (h, r) ->
  s_kind s = KReturn -> s_whole s = EReturn a sp v ->
  exists ts, hook_text (ev_str E) f tr Return (h_count h) (etoks (EReturn (foreign a) sp v)) (etoks (s_target s')) sp ts /\ ev_parse E ts = Some r.
Proof.
  intros H Hs Hp Hn Ht Hh Hk Hw. destruct (position_text E f it out s s' H Hs Hp tr h r Hn Ht Hh) as (ts & H1 & H2). exists ts. split; [|exact H2].
  rewrite (C46_return E f it out s s' h r a v sp H Hs Hp Hh Hk Hw), Hk, Hw in H1. exact H1.
Qed.
Print Assumptions C46_return_text.
(** the hook of a tail expression reports where the expression begins as it stands in the output *)
Theorem C46_tail_seen E f it out s s' h r t : expands E f it out -> source it -> position it out s s' -> s_hook s' = Some (h, r) ->
  s_kind s = KTail t -> h_span h = match etoks (s_target s') with [] => call_site | x :: _ => tt_span x end.
Proof.
  intros H Hs Hp Hh Hk. destruct (hook_trail E f it out s s' H Hs Hp h r Hh) as (tr & Ht & _). destruct (hook_made E f it out s s' H Hs Hp tr h r Ht Hh) as [_ _ Hq _ _ _].
  rewrite Hk in Hq. exact Hq.
Qed.
Print Assumptions C46_tail_seen.
(** which is where it begins in the source, hooq attributes aside, unless the hook of a [?] at its left edge replaced
    the operand.  Missing: that case, see [C46_tail_refuted].  *)
Theorem C46_tail_partial E f it out s s' h r t : expands E f it out -> source it -> position it out s s' -> s_hook s' = Some (h, r) ->
  s_kind s = KTail t -> prints_start E -> Forall keeps_start (edge (s_target s')) -> start (etoks (last (edge (s_target s')) (s_target s'))) <> None ->
  start (etoks (bare (s_target s))) = Some (h_span h).
Proof.
  intros H Hs Hp Hh Hk HP HK HL. rewrite (C46_tail_seen E f it out s s' h r t H Hs Hp Hh Hk), <- (target_bare E f it out s s' H Hs Hp).
  assert (HM : Forall (made_ok E) (edge (s_target s'))).
  { destruct (position_treated _ _ _ _ _ _ H Hs Hp) as (n & n' & Ht). destruct (treated_walked _ _ _ _ _ _ Ht) as [He|Hw].
    - rewrite He. apply edge_written, (target_written it out s s' Hs Hp).
    - destruct Hw as (ov & c & cnt & cnt' & fr & Hw & Hwr & _). eapply edge_made; eassumption. }
  destruct (start_kept E HP _ HK HM HL) as [He Hn]. rewrite <- He. destruct (etoks (s_target s')); [exfalso; apply Hn; reflexivity|reflexivity].
Qed.
Print Assumptions C46_tail_partial.

(** {[
 2      if x()
 3          ?
 4      { return
 5          Err(1);
 6      }
 7      a()?
 8          .b(c()?)
    ]} *)
Definition p_name (l c : nat) (n : string) : expr := EPath [] (mk_path false [mk_seg n [] (at_ l c)]).
Definition p_call (l c : nat) (n : string) (es : list expr) : expr := ECall [] (p_name l c n) (at_ l (c + 1)) es [].
Definition p_main : item := IFn [] [] (x_sig "main" x_result) (at_ 1 10)
  [SExpr (EIf [] [TIdent "if" (at_ 2 5)] (ETry [] (p_call 2 8 "x" []) (at_ 3 9)) (at_ 4 5)
            [semi (EReturn [] (at_ 4 7) (Some (p_call 5 9 "Err" [ELit [] (LUsize 1) (at_ 5 13)])))] [] None) (Some (at_ 6 6));
   tail (EMethodCall [] (ETry [] (p_call 7 5 "a" []) (at_ 7 8)) [TPunct "." (at_ 8 9); TIdent "b" (at_ 8 10)] (at_ 8 11)
           [ETry [] (p_call 8 12 "c" []) (at_ 8 15)] [])].
Definition p_core (m : method) : fcore := mk_fcore [] m (mk_switch true true true) ["Err"] ["Ok"] ["Result"] true [].
Definition places (it : item) : list (option (nat * nat)) :=
  map (fun s => option_map (fun p => (sp_line (h_span (fst p)), sp_col (h_span (fst p)))) (s_hook s)) (item_sites [] it).
Definition p_insert : method := Insert call_site [qi "log"; qg Parenth [qp "$"; qi "line"]] false.
Definition p_out : item := Eval vm_compute in out_of x_env (p_core p_insert) p_main.
Example C46_ex_places : places p_out = [Some (3, 9); Some (4, 7); Some (7, 8); Some (8, 15); Some (7, 5)].
Proof. vm_compute. reflexivity. Qed.
(** the texts: each [$line] became the line of the target *)
Definition line_of (e : expr) : list nat := flat_map (fun t => match t with TGroup Parenth [TLit (LUsize n) _] _ => [n] | _ => [] end) (etoks e).
Example C46_ex_lines : map (fun s => option_map (fun p => last (line_of (snd p)) 0) (s_hook s)) (item_sites [] p_out) = [Some 3; Some 4; Some 7; Some 8; Some 7].
Proof. vm_compute. reflexivity. Qed.
Lemma x_prints : prints_start x_env.
Proof. intros ts r H. inversion H; subst. reflexivity. Qed.
Example C46_ex : let s := site_of p_main 4 in let s' := site_of p_out 4 in
  expands x_env (p_core p_insert) p_main p_out /\ source p_main /\ position p_main p_out s s' /\ s_kind s = KTail true /\ hooked s' /\
  prints_start x_env /\ Forall keeps_start (edge (s_target s')) /\ start (etoks (last (edge (s_target s')) (s_target s'))) <> None /\
  length (edge (s_target s')) = 5 /\ start (etoks (bare (s_target s))) = Some (at_ 7 5).
Proof.
  repeat apply conj; try reflexivity.
  - eexists. vm_compute. reflexivity.
  - t_position 4.
  - vm_compute. discriminate.
  - apply x_prints.
  - vm_compute. repeat constructor. do 3 eexists. reflexivity.
  - vm_compute. discriminate.
Qed.
(** with the method [wrap($expr)] the tail expression begins with [wrap], which carries the position of the [?] *)
Definition p_replace : method := Replace [qi "wrap"; qg Parenth [qp "$"; qi "expr"]] false.
Definition p_out2 : item := Eval vm_compute in out_of x_env (p_core p_replace) p_main.
Theorem C46_tail_refuted : exists E f it out s s' h r t, expands E f it out /\ source it /\ position it out s s' /\ s_hook s' = Some (h, r) /\
  s_kind s = KTail t /\ prints_start E /\ start (etoks (bare (s_target s))) <> Some (h_span h).
Proof.
  exists x_env, (p_core p_replace), p_main, p_out2, (site_of p_main 4), (site_of p_out2 4). do 3 eexists. repeat apply conj; try reflexivity.
  - eexists. vm_compute. reflexivity.
  - t_position 4.
  - apply x_prints.
  - vm_compute. discriminate.
Qed.
Print Assumptions C46_tail_refuted.
Example C46_tail_refuted_ex : places p_out2 = [Some (3, 9); Some (4, 7); Some (7, 8); Some (8, 15); Some (7, 8)].
Proof. vm_compute. reflexivity. Qed.
