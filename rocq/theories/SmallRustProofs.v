(** The parser of the small part of Rust reads back what is printed, and accepts nothing else. *)
From Coq Require Import String Ascii Bool Arith Lia List.
From Verif Require Import Base Tokens Method Paths Context Flavor Attrs Syntax GrammarSpec SmallRust.
Import ListNotations.
Open Scope string_scope.
Open Scope list_scope.

Scheme post_mut := Minimality for post Sort Prop
  with un_mut := Minimality for un Sort Prop
  with oper_mut := Minimality for oper Sort Prop
  with cond_mut := Minimality for cond Sort Prop
  with full_mut := Minimality for full Sort Prop
  with args_mut := Minimality for args Sort Prop
  with arms_mut := Minimality for arms Sort Prop
  with guard_mut := Minimality for guard Sort Prop
  with block_mut := Minimality for block Sort Prop.
Combined Scheme tree_mut from post_mut, un_mut, oper_mut, cond_mut, full_mut, args_mut, arms_mut, guard_mut, block_mut.

Lemma word_not x k : word x -> In k keywords -> String.eqb x k = false.
Proof. intros W K. apply String.eqb_neq. intros ->. exact (W K). Qed.
Lemma root_not x k : root x -> In k keywords -> k <> "self" -> String.eqb x k = false.
Proof. intros [W| ->] K N; [apply word_not; assumption|]. apply String.eqb_neq. congruence. Qed.
Lemma is_word_iff x : is_word x = true <-> word x.
Proof. unfold is_word, word. destruct (in_dec string_dec x keywords); split; intro H; try discriminate; tauto. Qed.
Ltac nk := first [assumption | discriminate | unfold keywords; simpl; tauto].
Lemma size_app a b : size (a ++ b) = size a + size b.
Proof. unfold size. rewrite map_app, list_sum_app. reflexivity. Qed.
Lemma size_cons t b : size (t :: b) = tt_size t + size b.
Proof. reflexivity. Qed.
Lemma size_group d ts sp : tt_size (TGroup d ts sp) = S (size ts).
Proof. reflexivity. Qed.
Lemma tt_size_pos t : 0 < tt_size t.
Proof. destruct t; simpl; lia. Qed.
Lemma size_length ts : List.length ts <= size ts.
Proof. induction ts; simpl; [lia|]. rewrite size_cons. pose proof (tt_size_pos a). lia. Qed.

(** * What may follow *)
Definition noelse (r : list tt) : Prop := match r with TIdent x _ :: _ => String.eqb x "else" = false | _ => True end.
Definition nopar (r : list tt) : Prop := match r with TGroup Parenth _ _ :: _ => False | TPunct c _ :: _ => Ascii.eqb c ":" = false | _ => True end.
Definition nobr (r : list tt) : Prop := match r with TGroup Bracket _ _ :: _ => False | _ => True end.
(** neither a call nor [?] nor [.] nor an index *)
Definition free (r : list tt) : Prop := nopar r /\ noelse r /\ goes_on r = false /\ nobr r.
(** after an expression in braces, or followed by braces *)
Definition closed (r : list tt) : Prop := match r with [] => True | TPunct c _ :: _ => c = ","%char \/ c = ";"%char | _ => False end.
Definition stops (r : list tt) : Prop :=
  match r with TGroup Brace _ _ :: _ => True | TPunct c _ :: TPunct d _ :: _ => arrow c d = true \/ closed r | _ => closed r end.
Lemma closed_stops r : closed r -> stops r.
Proof. destruct r as [|[ |c| |d] [|[ |e| | ] r]]; simpl; tauto. Qed.
Lemma arrow_is c d : arrow c d = true -> c = "="%char /\ d = ">"%char.
Proof. unfold arrow. intro H. apply andb_true_iff in H. destruct H as [H1 H2]. apply Ascii.eqb_eq in H1. apply Ascii.eqb_eq in H2. auto. Qed.
Lemma closed_free r : closed r -> free r.
Proof. destruct r as [|[ |c| |[ | | | ]] r]; simpl; try tauto; intros; unfold free; simpl; auto. destruct H as [->| ->]; auto. Qed.
Lemma stops_free r : stops r -> free r.
Proof.
  destruct r as [|[ |c| |[ | | | ]] [|[ |d| | ] r]]; try (apply closed_free); try (intros _; unfold free; simpl; auto; fail). intros [A|C]; [|exact (closed_free _ C)].
  destruct (arrow_is _ _ A) as [-> ->]. unfold free. simpl. auto.
Qed.
Lemma closed_op r : closed r -> read_op r = None.
Proof.
  destruct r as [|[ |c| |[ | | | ]] r]; simpl; try tauto. intros [->| ->]; destruct r as [|[ |d| | ] [|[ |g| | ] r]]; reflexivity.
Qed.
Lemma stops_op r : stops r -> read_op r = None.
Proof.
  destruct r as [|[ |c| |[ | | | ]] [|[ |d| | ] r]]; try (apply closed_op); try (intros _; reflexivity). intros [A|C]; [|exact (closed_op _ C)].
  destruct (arrow_is _ _ A) as [-> ->]. destruct r as [|[ |g| | ] r]; reflexivity.
Qed.
Lemma read_post_free pe r e : free r -> read_post pe r e = Some (e, r).
Proof.
  destruct r as [|[ |c| |[ | | | ]] r]; try reflexivity; intros (_ & _ & G & B); [|destruct B]. cbn [goes_on] in G. apply orb_false_elim in G. destruct G as [G1 G2]. cbn [read_post]. rewrite G1.
  destruct (Ascii.eqb c "."); [|reflexivity]. destruct r as [|[ |d| | ] r]; cbn in G2; try discriminate. destruct (Ascii.eqb d "."); [reflexivity|discriminate].
Qed.

Lemma outer_nil : outer_toks [] = [].
Proof. reflexivity. Qed.
Lemma inner_nil : inner_toks [] = [].
Proof. reflexivity. Qed.
Ltac toks := cbn [etoks stoks armtoks an_arm opt_toks flat_map] in *; rewrite ?outer_nil, ?inner_nil in *; cbn [app] in *.
Lemma name_toks x sp : etoks (name x sp) = [TIdent x sp].
Proof. reflexivity. Qed.
Lemma far_toks x sp hs : etoks (far x sp hs) = TIdent x sp :: flat_map hop_toks hs.
Proof. cbn. f_equal. induction hs as [|h hs IH]; [reflexivity|]. cbn. rewrite <- IH. reflexivity. Qed.
Lemma root_first x : root x -> first x.
Proof. intros [W| ->]; [left; exact W|right; simpl; auto]. Qed.
Lemma first_not x k : first x -> In k keywords -> ~ In k path_words -> String.eqb x k = false.
Proof. intros [W|P] K N; [apply word_not; assumption|]. apply String.eqb_neq. intros ->. exact (N P). Qed.
(** [x] is none of the keywords the parser asks for *)
Ltac kw := solve [eapply word_not; [eassumption | unfold keywords; simpl; tauto] | eapply root_not; [eassumption | unfold keywords; simpl; tauto | discriminate]
  | eapply first_not; [eassumption | unfold keywords; simpl; tauto | let H := fresh in intro H; simpl in H; intuition discriminate]].
Lemma first_iff x : is_word x || existsb (String.eqb x) path_words = true <-> first x.
Proof.
  rewrite orb_true_iff, is_word_iff, existsb_exists. unfold first. split; intros [H|H]; auto.
  - destruct H as (y & I & E). apply String.eqb_eq in E. subst. auto.
  - right. exists x. split; [exact H|apply String.eqb_refl].
Qed.

(** * First tokens *)
Definition solid (ts : list tt) : Prop := match ts with [] | TPunct _ _ :: _ => False | _ => True end.
Definition post_start (ts : list tt) : Prop :=
  match ts with TIdent x _ :: _ => In x block_words \/ first x | TLit _ _ :: _ => True | TGroup NoDelim _ _ :: _ => False | TGroup _ _ _ :: _ => True | _ => False end.
Definition signs : list ascii := ("&" :: prefixes)%char.
Definition un_start (ts : list tt) : Prop := match ts with TPunct c _ :: r => In c signs /\ solid r | _ => post_start ts end.
Definition full_start (ts : list tt) : Prop :=
  match ts with TIdent x _ :: _ => In x block_words \/ In x ["return"; "break"; "continue"] \/ first x | TPunct c _ :: _ => c = "|"%char \/ In c signs | _ => post_start ts end.
Definition block_start (ts : list tt) : Prop := match ts with [] => True | TIdent x _ :: _ => x = "let" \/ full_start ts | _ => full_start ts end.
Lemma post_start_app ts r : post_start ts -> post_start (ts ++ r).
Proof. destruct ts; simpl; tauto. Qed.
Lemma solid_app ts r : solid ts -> solid (ts ++ r).
Proof. destruct ts; simpl; tauto. Qed.
Lemma un_start_app ts r : un_start ts -> un_start (ts ++ r).
Proof. destruct ts as [|[ | | | ] ts]; simpl; try tauto. intros [H S]. split; auto using solid_app. Qed.
Lemma full_start_app ts r : full_start ts -> full_start (ts ++ r).
Proof. destruct ts; simpl; tauto. Qed.
Lemma post_solid ts : post_start ts -> solid ts.
Proof. destruct ts as [|[d| | |] r]; simpl; tauto. Qed.
Lemma post_un_start ts : post_start ts -> un_start ts.
Proof. destruct ts as [|[d| | |] r]; simpl; tauto. Qed.
Lemma un_full_start ts : un_start ts -> full_start ts.
Proof. destruct ts as [|[d| | |] r]; simpl; tauto. Qed.
Lemma full_block_start ts : full_start ts -> block_start ts.
Proof. destruct ts as [|[d| | |] r]; simpl; tauto. Qed.
Lemma full_nonempty ts : full_start ts -> ts <> [].
Proof. destruct ts; [intros []|discriminate]. Qed.
Lemma head_app (P : list tt -> Prop) ts r : (forall t l l', P (t :: l) -> P (t :: l')) -> ts <> [] -> P ts -> P (ts ++ r).
Proof. intros H N. destruct ts; [congruence|]. apply H. Qed.
Lemma post_starts cl e : post cl e -> post_start (etoks e).
Proof.
  induction 1; toks; rewrite ?far_toks; try (simpl; auto using root_first; unfold first in *; tauto); try (apply post_start_app; assumption).
Qed.
Lemma un_starts cl e : un cl e -> un_start (etoks e).
Proof.
  intros [x H|a x H|a b x H|c a x C H]; [apply post_un_start; eapply post_starts; eassumption| | |]; toks; simpl; (split; [tauto|]); auto; eapply post_solid, post_starts; eassumption.
Qed.
Lemma oper_starts cl e : oper cl e -> un_start (etoks e) .
Proof. induction 1; toks; try apply un_start_app; try assumption; eapply un_starts; eassumption. Qed.
Lemma full_starts cl e : full cl e -> full_start (etoks e).
Proof. intros []; try (apply un_full_start; eapply oper_starts; eassumption); simpl; auto; right; left; tauto. Qed.
Lemma block_starts cl b : block cl b -> block_start (flat_map stoks b).
Proof.
  intros []; toks; try (simpl; auto; fail).
  - rewrite !app_nil_r. apply full_block_start. eapply full_starts; eassumption.
  - apply full_starts in H. rewrite <- app_assoc. apply full_block_start, full_start_app. exact H.
  - apply post_starts in H. rewrite app_nil_r. apply full_block_start, un_full_start, post_un_start, post_start_app. exact H.
Qed.
Lemma post_full cl e : full cl e -> is_post e = true -> post cl e.
Proof. intros [x H| | | | | | | |]; try discriminate. destruct H as [x H| | |]; try discriminate. destruct H; try discriminate. auto. Qed.
Lemma post_is cl e : post cl e -> is_post e = true.
Proof. intros []; reflexivity. Qed.
Lemma starts_head t l l' : starts_block (t :: l) = starts_block (t :: l').
Proof. destruct t; reflexivity. Qed.
Lemma starts_app ts r : ts <> [] -> starts_block (ts ++ r) = starts_block ts.
Proof. destruct ts; [congruence|]. intros _. apply starts_head. Qed.
Lemma un_nonempty cl e : un cl e -> etoks e <> [].
Proof. intro H. apply full_nonempty, un_full_start. eapply un_starts; eassumption. Qed.
Lemma oper_nonempty cl e : oper cl e -> etoks e <> [].
Proof. intro H. apply full_nonempty, un_full_start. eapply oper_starts; eassumption. Qed.
Lemma full_block_post cl e r : full cl e -> starts_block (etoks e ++ r) = true -> post cl e.
Proof.
  intros F. rewrite starts_app by (eapply full_nonempty, full_starts, F). destruct F as [x H| | | | | | | |]; try discriminate. destruct H as [x H|l o s x Hl S|l o s x Hl S|l a x Hl S].
  - destruct H; auto; discriminate.
  - toks. rewrite starts_app by (eapply oper_nonempty; eassumption). congruence.
  - toks. rewrite starts_app by (eapply oper_nonempty; eassumption). congruence.
  - toks. rewrite starts_app by (eapply un_nonempty; eassumption). congruence.
Qed.
Lemma blocky_starts cl e : post cl e -> blocky e = true -> starts_block (etoks e) = true.
Proof. intros []; try discriminate; reflexivity. Qed.
Lemma blocky_post cl e : full cl e -> blocky e = true -> post cl e.
Proof. intros H B. apply post_full; [exact H|]. destruct e; try discriminate; reflexivity. Qed.

(** * Patterns and operators *)
Lemma take_all p pt r : forallb p pt = true -> match r with t :: _ => p t = false | [] => True end -> take p (pt ++ r) = (pt, r).
Proof.
  intros H R. induction pt as [|t pt IH]; cbn [app take].
  - destruct r as [|t r]; [reflexivity|]. cbn [take]. rewrite R. reflexivity.
  - cbn [forallb] in H. apply andb_true_iff in H. destruct H as [H1 H2]. rewrite H1, (IH H2). reflexivity.
Qed.
Lemma take_sound p ts a b : take p ts = (a, b) -> forallb p a = true /\ ts = a ++ b.
Proof.
  revert a b. induction ts as [|t ts IH]; intros a b H; cbn [take] in H; [injection H as <- <-; auto|]. destruct (p t) eqn:P; [|injection H as <- <-; auto].
  destruct (take p ts) as [a0 b0]. destruct (IH _ _ eq_refl) as [H1 H2]. injection H as <- <-. cbn [forallb app]. rewrite P, H1, H2. auto.
Qed.
Lemma pat_read pt r : pat pt -> match r with t :: _ => pat_tok t = false | [] => True end -> read_pat (pt ++ r) = Some (pt, r).
Proof.
  intros P R. unfold read_pat. destruct pt as [|t pt]; [destruct P|]. destruct P as [S F]. rewrite take_all by assumption. rewrite S. reflexivity.
Qed.
Lemma pat_sound ts pt r : read_pat ts = Some (pt, r) -> pat pt /\ ts = pt ++ r.
Proof.
  unfold read_pat. destruct (take pat_tok ts) as [[|t a] b] eqn:T; [discriminate|]. apply take_sound in T. destruct T as [F ->]. destruct (starts_pat t) eqn:S; [|discriminate].
  intro H. injection H as <- <-. split; [split; assumption|reflexivity].
Qed.
Lemma pat_size pt : pat pt -> 0 < List.length pt.
Proof. destruct pt; [intros []|]. simpl. lia. Qed.
Lemma pat_starts pt r : pat pt -> noelse (pt ++ r) /\ goes_on (pt ++ r) = false /\ match pt ++ r with TPunct c _ :: _ => c <> ","%char | _ => True end.
Proof.
  destruct pt as [|[x a|c a|l a|d l a] pt]; intro P; [destruct P| | | |]; destruct P as [S F]; cbn [app]; unfold noelse; simpl; auto.
  - cbn [forallb pat_tok existsb] in F. apply andb_true_iff in F. destruct F as [F _]. destruct (String.eqb x "else"); [|auto]. rewrite !orb_true_r in F. cbn in F. rewrite ?orb_true_r in F. discriminate.
  - cbn [starts_pat existsb] in S. destruct (Ascii.eqb c "?"), (Ascii.eqb c "."), (Ascii.eqb_spec c ","); try discriminate. auto.
Qed.
(** no second [&] *)
Definition no_amp (ts : list tt) : Prop := match ts with TPunct c _ :: _ => c <> "&"%char | _ => True end.
Lemma op_read o s r : spell o = Some s -> s = "=" \/ In s infixes -> un_start r -> (s = "&" -> no_amp r) -> read_op (o ++ r) = Some (o, r).
Proof.
  intros Sp O U A.
  assert (X : forall (P : Prop), (match r with TPunct c a :: r' => In c signs /\ solid r' | [] => False | _ => True end -> P) -> P).
  { intros P H. apply H. destruct r as [|[ | | | ] r]; simpl in U; auto. }
  assert (L : (exists c x, o = [TPunct c x] /\ s = String c "") \/ (exists c x d y, o = [TPunct c x; TPunct d y] /\ s = String c (String d "")) \/
              (exists c x d y g z, o = [TPunct c x; TPunct d y; TPunct g z] /\ s = String c (String d (String g "")))).
  { destruct o as [|[ |c x| | ] o]; simpl in Sp; try discriminate; [injection Sp as <-; destruct O as [O|O]; [discriminate|]; simpl in O; intuition discriminate|].
    destruct o as [|[ |d y| | ] o]; simpl in Sp; try discriminate; [injection Sp as <-; left; eauto|].
    destruct o as [|[ |g z| | ] o]; simpl in Sp; try discriminate; [injection Sp as <-; right; left; eauto 6|].
    destruct (spell o) as [s'|] eqn:Q; [|discriminate]. simpl in Sp. injection Sp as <-.
    destruct o as [|t o]; [simpl in Q; injection Q as <-; right; right; eauto 8|].
    destruct t as [ |h ? | | ]; simpl in Q; try discriminate. destruct (spell o); [|discriminate]. simpl in Q. injection Q as <-.
    exfalso. destruct O as [O|O]; [discriminate|]. simpl in O. intuition discriminate. }
  clear Sp. apply X. clear X U. intro U.
  destruct L as [(c & x & -> & ->)|[(c & x & d & y & -> & ->)|(c & x & d & y & g & z & -> & ->)]].
  - assert (C : In (String c "") ("=" :: infixes)) by (destruct O as [->|O]; [left; reflexivity|right; exact O]). clear O.
    assert (I1 : is_op (String c "") = true) by (apply existsb_exists; exists (String c ""); split; [exact C|apply String.eqb_refl]).
    cbn [read_op app]. rewrite I1. destruct r as [|[ |d y| | ] r]; try reflexivity.
    destruct U as [D S].
    assert (I2 : is_op (String c (String d "")) = false).
    { assert (Y : forall k, In (String k "") ("=" :: infixes) -> (String k "" = "&" -> False) \/ k = "&"%char).
      { intros k _. destruct (ascii_dec k "&"); [right; assumption|left; intro Q; injection Q; congruence]. }
      simpl in C, D. destruct (Y c C) as [Y'|Y'].
      - repeat (destruct C as [C|C]; [try discriminate C; injection C as <-; repeat (destruct D as [D|D]; [subst d; try reflexivity; exfalso; apply Y'; reflexivity|]); destruct D|]). destruct C.
      - subst c. specialize (A eq_refl). cbn [no_amp] in A. repeat (destruct D as [D|D]; [subst d; try reflexivity; exfalso; apply A; reflexivity|]). destruct D. }
    assert (I4 : arrow c d = false).
    { destruct (arrow c d) eqn:Q; [|reflexivity]. destruct (arrow_is _ _ Q) as [_ ->]. simpl in D. repeat (destruct D as [D|D]; [discriminate|]). destruct D. }
    rewrite I2, I4. destruct r as [|[ |g z| | ] r]; try reflexivity. destruct S.
  - assert (C : In (String c (String d "")) infixes) by (destruct O as [O|O]; [discriminate|exact O]). clear O A.
    assert (I2 : is_op (String c (String d "")) = true) by (apply existsb_exists; eexists; split; [right; exact C|apply String.eqb_refl]).
    cbn [read_op app]. rewrite I2. destruct r as [|[ |g z| | ] r]; try reflexivity; destruct U as [D S].
    assert (I3 : is_op (String c (String d (String g ""))) = false).
    { simpl in C, D. repeat (destruct C as [C|C]; [try discriminate C; injection C as <- <-; repeat (destruct D as [D|D]; [subst g; reflexivity|]); destruct D|]). destruct C. }
    rewrite I3. reflexivity.
  - assert (C : In (String c (String d (String g ""))) infixes) by (destruct O as [O|O]; [discriminate|exact O]).
    assert (I3 : is_op (String c (String d (String g ""))) = true) by (apply existsb_exists; eexists; split; [right; exact C|apply String.eqb_refl]).
    cbn [read_op app]. rewrite I3. reflexivity.
Qed.
Lemma is_op_iff s : is_op s = true -> s = "=" \/ In s infixes.
Proof. unfold is_op. intro H. apply existsb_exists in H. destruct H as (x & [<-|H] & E); apply String.eqb_eq in E; subst; auto. Qed.
Lemma op_sound ts o r : read_op ts = Some (o, r) -> (exists s, spell o = Some s /\ (s = "=" \/ In s infixes)) /\ ts = o ++ r /\ o <> [].
Proof.
  destruct ts as [|[ |a x| | ] ts]; cbn [read_op]; try discriminate.
  assert (G1 : (if is_op (String a "") then Some ([TPunct a x], ts) else None) = Some (o, r) -> (exists s, spell o = Some s /\ (s = "=" \/ In s infixes)) /\ TPunct a x :: ts = o ++ r /\ o <> []).
  { destruct (is_op (String a "")) eqn:Q; [|discriminate]. apply is_op_iff in Q. intro H. injection H as <- <-. split; [eexists; split; [reflexivity|exact Q]|]. split; [reflexivity|discriminate]. }
  destruct ts as [|[ |b y| | ] ts]; try exact G1.
  assert (G2 : (if is_op (String a (String b "")) then Some ([TPunct a x; TPunct b y], ts) else if arrow a b then None else if is_op (String a "") then Some ([TPunct a x], TPunct b y :: ts) else None) = Some (o, r) ->
     (exists s, spell o = Some s /\ (s = "=" \/ In s infixes)) /\ TPunct a x :: TPunct b y :: ts = o ++ r /\ o <> []).
  { destruct (is_op (String a (String b ""))) eqn:Q; [|destruct (arrow a b); [discriminate|exact G1]]. apply is_op_iff in Q. intro H. injection H as <- <-. split; [eexists; split; [reflexivity|exact Q]|]. split; [reflexivity|discriminate]. }
  destruct ts as [|[ |c z| | ] ts]; try exact G2.
  destruct (is_op (String a (String b (String c "")))) eqn:Q; [|exact G2]. apply is_op_iff in Q. intro H. injection H as <- <-. split; [eexists; split; [reflexivity|exact Q]|]. split; [reflexivity|discriminate].
Qed.

(** * What is printed is read back *)
Definition post_ok (e : expr) : Prop :=
  (blocky e = true -> forall n r, 2 * size (etoks e) <= n -> noelse r -> read_atom n (etoks e ++ r) = Some (e, r)) /\
  (forall n r, 2 * size (etoks e) <= n -> nopar r -> (starts_block (etoks e) = true -> noelse r) -> exists root r0,
     read_atom n (etoks e ++ r) = Some (root, r0) /\ read_post (read_expr n) r0 root = read_post (read_expr n) r e /\
     (starts_block (etoks e ++ r) = true -> blocky e = false -> goes_on r0 = true)).
Definition un_ok (e : expr) : Prop := forall n r, 2 * size (etoks e) <= n -> free r -> un_step (read_expr n) (read_atom n) (etoks e ++ r) = Some (e, r).
Definition oper_ok (e : expr) : Prop := forall n r, 2 * size (etoks e) <= n -> stops r -> oper_step (read_expr n) (read_atom n) (etoks e ++ r) = Some (e, r).
Definition cond_ok (e : expr) : Prop := forall n r, 2 * size (etoks e) <= n -> stops r -> cond_step (read_expr n) (read_atom n) (etoks e ++ r) = Some (e, r).
Definition full_ok (e : expr) : Prop := forall n r, 2 * size (etoks e) < n -> closed r -> read_expr n (etoks e ++ r) = Some (e, r).
Definition args_ok (es : list expr) (cs : list tt) : Prop :=
  List.length es <= List.length (punctuated (map etoks es) cs) /\
  forall n k, 2 * size (punctuated (map etoks es) cs) < n -> List.length es < k -> read_args (read_expr n) k (punctuated (map etoks es) cs) = Some (es, cs).
Definition arms_ok (ms : list arm) : Prop :=
  List.length ms <= List.length (flat_map armtoks ms) /\
  forall n k, 2 * size (flat_map armtoks ms) < n -> List.length ms < k -> read_arms (read_expr n) (read_atom n) k (flat_map armtoks ms) = Some ms.
Definition block_ok (b : list stmt) : Prop :=
  List.length b <= List.length (flat_map stoks b) /\
  forall n k, 2 * size (flat_map stoks b) < n -> List.length b < k -> read_stmts (read_expr n) (read_atom n) k (flat_map stoks b) = Some b.

Lemma post_read e n r : post_ok e -> 2 * size (etoks e) <= n -> nopar r -> (starts_block (etoks e) = true -> noelse r) -> post_step (read_expr n) (read_atom n) (etoks e ++ r) = read_post (read_expr n) r e.
Proof. intros [_ H] N R R'. destruct (H n r N R R') as (x & r0 & A & B & _). unfold post_step. rewrite A. exact B. Qed.
Lemma post_read_free e n r : post_ok e -> 2 * size (etoks e) <= n -> free r -> post_step (read_expr n) (read_atom n) (etoks e ++ r) = Some (e, r).
Proof. intros H N R. rewrite post_read by (auto; intros; apply R). apply read_post_free, R. Qed.
Lemma arguments_ok n es cs : args_ok es cs -> 2 * size (punctuated (map etoks es) cs) < n -> arguments (read_expr n) (punctuated (map etoks es) cs) = Some (es, cs).
Proof. intros [L H] N. unfold arguments. apply H; [exact N|lia]. Qed.
Lemma statements_ok n b : block_ok b -> 2 * size (flat_map stoks b) < n -> statements (read_expr n) (read_atom n) (flat_map stoks b) = Some b.
Proof. intros [L H] N. unfold statements. apply H; [exact N|lia]. Qed.
Lemma match_arms_ok n ms : arms_ok ms -> 2 * size (flat_map armtoks ms) < n -> match_arms (read_expr n) (read_atom n) (flat_map armtoks ms) = Some ms.
Proof. intros [L H] N. unfold match_arms. apply H; [exact N|lia]. Qed.
Lemma atom_ok e :
  starts_block (etoks e) = false -> etoks e <> [] -> blocky e = false ->
  (forall n r, 2 * size (etoks e) <= n -> nopar r -> read_atom n (etoks e ++ r) = Some (e, r)) -> post_ok e.
Proof.
  intros S T B H. split; [intro B'; congruence|]. intros n r N R _. exists e, r. rewrite (H n r N R). split; [reflexivity|split; [reflexivity|]].
  intros S'. rewrite starts_app in S' by exact T. congruence.
Qed.
Lemma blocky_ok e : blocky e = true -> starts_block (etoks e) = true -> (forall n r, 2 * size (etoks e) <= n -> noelse r -> read_atom n (etoks e ++ r) = Some (e, r)) -> post_ok e.
Proof.
  intros B S H. split; [intros _; exact H|]. intros n r N R R'. exists e, r. rewrite (H n r N (R' S)). split; [reflexivity|split; [reflexivity|]]. congruence.
Qed.
#[local] Arguments size : simpl never.
#[local] Arguments Nat.mul : simpl never.
Ltac sizes := repeat (rewrite ?size_app, ?size_cons, ?size_group in * ); cbn [tt_size] in *.

Ltac side := solve [assumption | lia | exact I | reflexivity | split; reflexivity | split; [exact I|reflexivity] | repeat split | auto using closed_stops, stops_free | right; reflexivity | left; reflexivity].
Lemma root_starts x sp r : root x -> starts_block (TIdent x sp :: r) = false.
Proof. intro W. cbn [starts_block existsb block_words]. repeat (rewrite (root_not x) by nk). reflexivity. Qed.
Ltac nf := first [assumption | unfold keywords; simpl; tauto | let H := fresh in intro H; simpl in H; intuition discriminate].
Lemma first_starts x sp r : first x -> starts_block (TIdent x sp :: r) = false.
Proof. intro W. cbn [starts_block existsb block_words]. repeat (rewrite (first_not x) by nf). reflexivity. Qed.
Definition nocolon (r : list tt) : Prop := match r with TPunct c _ :: _ => Ascii.eqb c ":" = false | _ => True end.
Lemma hops_none r : nocolon r -> read_hops r = ([], r).
Proof. destruct r as [|[ |c| | ] [|[ |d| | ] [|[ | | | ] r]]]; try reflexivity. cbn [nocolon read_hops]. intros ->. reflexivity. Qed.
Lemma hops_free r : nopar r -> read_hops r = ([], r).
Proof. intro R. apply hops_none. destruct r as [|[ |c| | ] r]; try exact I. exact R. Qed.
Lemma hops_read hs r : hops hs -> read_hops (flat_map hop_toks hs ++ r) = let (hs', r') := read_hops r in (hs ++ hs', r').
Proof.
  induction hs as [|[a b x sp] hs IH]; intro H; [cbn [flat_map app]; destruct (read_hops r); reflexivity|]. inversion H as [|? ? W Hs]; subst. cbn [flat_map hop_toks app h_c1 h_c2 h_id h_sp read_hops].
  rewrite (proj2 (is_word_iff x) W). cbn [Ascii.eqb andb Bool.eqb]. rewrite (IH Hs). destruct (read_hops r). reflexivity.
Qed.
Lemma hops_sound ts hs r : read_hops ts = (hs, r) -> hops hs /\ ts = flat_map hop_toks hs ++ r.
Proof.
  revert hs r. induction ts as [ts IH] using (well_founded_induction (Wf_nat.well_founded_ltof _ (@List.length tt))). intros hs r.
  assert (Z : ([] : list hop, ts) = (hs, r) -> hops hs /\ ts = flat_map hop_toks hs ++ r) by (intro Q; injection Q as <- <-; split; [constructor|reflexivity]).
  destruct ts as [|[ |c a| | ] [|[ |d b| | ] [|[x sp| | | ] ts]]]; try exact Z. cbn [read_hops]. destruct (Ascii.eqb_spec c ":"); [|exact Z]. destruct (Ascii.eqb_spec d ":"); [|exact Z]. subst. destruct (is_word x) eqn:W; [|exact Z].
  cbn [andb]. apply is_word_iff in W. destruct (read_hops ts) as [hs' r'] eqn:E. apply IH in E; [|unfold ltof; simpl; lia]. destruct E as [H ->]. intro Q. injection Q as <- <-. split; [constructor; assumption|reflexivity].
Qed.
(** the keywords are tried in turn *)
Ltac no_kw W := repeat match goal with |- context [String.eqb ?x ?k] => first [rewrite (word_not x k) by nk | rewrite (root_not x k) by nk | rewrite (first_not x k) by nf] end; cbn iota.
Lemma ok_name x sp : root x -> post_ok (name x sp).
Proof.
  intro W. apply atom_ok; [apply root_starts, W|discriminate|reflexivity|].
  intros [|n] r N R; rewrite name_toks in *; sizes; [lia|]. cbn [read_atom atom_step app]. no_kw W. rewrite (proj2 (first_iff x) (root_first x W)), (hops_free r R). destruct W as [W| ->].
  - rewrite (proj2 (is_word_iff x) W). destruct r as [|[ | | |d ? ?] r]; try reflexivity. destruct d; try reflexivity. destruct R.
  - reflexivity.
Qed.
Lemma ok_call x sp0 sp es cs : word x -> args_ok es cs -> post_ok (ECall [] (name x sp0) sp es cs).
Proof.
  intros W A. apply atom_ok; [toks; rewrite name_toks; apply root_starts; left; exact W|discriminate|reflexivity|].
  intros [|n] r N R; toks; rewrite name_toks in *; cbn [app] in *; sizes; [lia|].
  cbn [read_atom atom_step app]. no_kw W. rewrite (proj2 (first_iff x) (or_introl W)), hops_none by exact I. rewrite (proj2 (is_word_iff x) W), arguments_ok by side. reflexivity.
Qed.
Lemma ok_far x sp h hs : first x -> hops (h :: hs) -> post_ok (far x sp (h :: hs)).
Proof.
  intros W H. apply atom_ok; [rewrite far_toks; apply first_starts, W|discriminate|reflexivity|].
  intros [|n] r N R; rewrite far_toks in *; sizes; [lia|]. cbn [read_atom]. unfold atom_step. cbn [app]. no_kw W. rewrite (proj2 (first_iff x) W), hops_read, (hops_free r R), app_nil_r by exact H.
  destruct r as [|[ | | |d ? ?] r]; try reflexivity. destruct d; try reflexivity. destruct R.
Qed.
Lemma ok_call_far x sp0 h hs sp es cs : first x -> hops (h :: hs) -> args_ok es cs -> post_ok (ECall [] (far x sp0 (h :: hs)) sp es cs).
Proof.
  intros W H A. apply atom_ok; [toks; rewrite far_toks; apply first_starts, W|discriminate|reflexivity|].
  intros [|n] r N R; toks; rewrite far_toks in *; rewrite <- ?app_assoc; cbn [app] in *; sizes; [lia|].
  cbn [read_atom]. unfold atom_step. cbn [app]. no_kw W. rewrite <- ?app_assoc, (proj2 (first_iff x) W), hops_read, hops_none, app_nil_r by solve [exact H|exact I].
  cbn [app]. rewrite arguments_ok by side. reflexivity.
Qed.
(** what follows an expression *)
Lemma ok_more e e' t ts :
  post_ok e -> blocky e' = false -> etoks e' = etoks e ++ t :: ts -> (forall r, goes_on (t :: ts ++ r) = true) ->
  (forall n r, 2 * size (etoks e') <= n -> nopar r -> read_post (read_expr n) (t :: ts ++ r) e = read_post (read_expr n) r e') -> post_ok e'.
Proof.
  intros P B T G Q. split; [congruence|]. intros n r N R R'. specialize (Q n r N R). rewrite T in *. sizes. rewrite <- app_assoc. cbn [app].
  destruct P as [P1 P2]. pose proof (G []) as G0. destruct t as [ |c s| | ]; try discriminate.
  assert (Np : Ascii.eqb c ":" = false) by (cbn [goes_on] in G0; apply orb_true_iff in G0; destruct G0 as [G0|G0]; [|apply andb_true_iff in G0; destruct G0 as [G0 _]]; apply Ascii.eqb_eq in G0; subst c; reflexivity).
  destruct (P2 n (TPunct c s :: ts ++ r) ltac:(lia) Np (fun _ => I)) as (x & r0 & B' & C & D).
  exists x, r0. split; [exact B'|]. split; [rewrite C; exact Q|]. intros S _.
  destruct (blocky e) eqn:Bl; [|apply D; auto].
  rewrite P1 in B' by side. injection B' as <- <-. apply G.
Qed.
Lemma ok_method e a m b sp es cs : post_ok e -> word m -> args_ok es cs -> post_ok (EMethodCall [] e [TPunct "." a; TIdent m b] sp es cs).
Proof.
  intros P W A. eapply ok_more; [exact P|reflexivity|reflexivity|reflexivity|]. intros n r N R. toks. sizes.
  cbn [read_post app]. change (Ascii.eqb "." "?") with false. change (Ascii.eqb "." ".") with true. cbn iota. no_kw W. rewrite (proj2 (is_word_iff m) W), arguments_ok by side. reflexivity.
Qed.
Lemma through_read {A} (k : list tt -> span -> list tt -> option A) q r g : forall d acc, inside d g = true -> through k d acc (g ++ TPunct ">" q :: r) = k (rev acc ++ g) q r.
Proof.
  assert (X : forall acc (t : tt) g, rev (t :: acc) ++ g = rev acc ++ t :: g) by (intros; cbn [rev]; rewrite <- app_assoc; reflexivity).
  induction g as [|[x a|c a|l a|dl l a] g IH]; intros d acc H; cbn [app]; cbn [inside] in H.
  - apply Nat.eqb_eq in H. subst d. cbn. rewrite app_nil_r. reflexivity.
  - apply andb_true_iff in H. destruct H as [H1 H2]. apply negb_true_iff in H1. cbn [through]. rewrite H1. etransitivity; [apply IH, H2|]. rewrite X. reflexivity.
  - cbn [through]. destruct (Ascii.eqb c "<"); [etransitivity; [apply IH, H|]; rewrite X; reflexivity|].
    destruct (Ascii.eqb c ">"); [destruct d; [discriminate|]; etransitivity; [apply IH, H|]; rewrite X; reflexivity|].
    apply andb_true_iff in H. destruct H as [H1 H2]. apply negb_true_iff in H1. rewrite H1. etransitivity; [apply IH, H2|]. rewrite X. reflexivity.
  - cbn [through]. etransitivity; [apply IH, H|]. rewrite X. reflexivity.
  - cbn [through]. etransitivity; [apply IH, H|]. rewrite X. reflexivity.
Qed.
Lemma through_sound {A} (k : list tt -> span -> list tt -> option A) x ts : forall d acc, through k d acc ts = Some x ->
  exists g q r, ts = g ++ TPunct ">" q :: r /\ inside d g = true /\ k (rev acc ++ g) q r = Some x.
Proof.
  assert (X : forall acc (t : tt) g, rev (t :: acc) ++ g = rev acc ++ t :: g) by (intros; cbn [rev]; rewrite <- app_assoc; reflexivity).
  assert (Go : forall d d' acc (t : tt) ts, (forall g, inside d' g = true -> inside d (t :: g) = true) ->
     (exists g q r, ts = g ++ TPunct ">" q :: r /\ inside d' g = true /\ k (rev (t :: acc) ++ g) q r = Some x) -> exists g q r, t :: ts = g ++ TPunct ">" q :: r /\ inside d g = true /\ k (rev acc ++ g) q r = Some x).
  { intros d d' acc t ts0 Hi (g & q & r & -> & I0 & K). exists (t :: g), q, r. split; [reflexivity|]. split; [apply Hi, I0|]. rewrite <- X. exact K. }
  induction ts as [|[y a|c a|l a|dl l a] ts IH]; intros d acc H; [discriminate| | | | ].
  - cbn [through] in H. destruct (String.eqb y "as") eqn:E; [discriminate|]. apply (Go d d); [|apply IH, H]. intros g G. cbn [inside]. rewrite E. exact G.
  - cbn [through] in H. destruct (Ascii.eqb c "<") eqn:E1; [apply (Go d (S d)); [|apply IH, H]; intros g G; cbn [inside]; rewrite E1; exact G|].
    destruct (Ascii.eqb_spec c ">") as [->|E2].
    + destruct d as [|d]; [|apply (Go (S d) d); [intros g G; exact G|apply IH, H]]. exists [], a, ts. split; [reflexivity|]. split; [reflexivity|]. rewrite app_nil_r. exact H.
    + destruct (Ascii.eqb c "-") eqn:E3; [discriminate|]. apply (Go d d); [|apply IH, H]. intros g G. cbn [inside]. rewrite E1, (proj2 (Ascii.eqb_neq _ _) E2), E3. exact G.
  - apply (Go d d); [auto|apply IH, H].
  - apply (Go d d); [auto|apply IH, H].
Qed.
Lemma ok_turbo e a m b c d l ts z sp es cs : post_ok e -> word m -> generics ts -> args_ok es cs -> post_ok (EMethodCall [] e (TPunct "." a :: TIdent m b :: fish c d l ts z) sp es cs).
Proof.
  intros P W G A. eapply ok_more; [exact P|reflexivity|reflexivity|reflexivity|]. intros n r N R. unfold fish in *. toks. sizes.
  cbn [read_post app]. change (Ascii.eqb "." "?") with false. change (Ascii.eqb "." ".") with true. cbn iota. no_kw W. rewrite (proj2 (is_word_iff m) W).
  change (Ascii.eqb ":" ":" && Ascii.eqb "<" "<") with true. change (Ascii.eqb ":" ":") with true. cbn iota. rewrite <- !app_assoc. cbn [app]. rewrite through_read by exact G. cbn [rev app]. rewrite arguments_ok by side. reflexivity.
Qed.
Lemma ok_nth e a x b : post_ok e -> numeral x = true -> post_ok (EField [] e [TPunct "." a; TLit x b]).
Proof.
  intros P W. eapply ok_more; [exact P|reflexivity|reflexivity|reflexivity|]. intros n r N R. toks.
  cbn [read_post app]. change (Ascii.eqb "." "?") with false. change (Ascii.eqb "." ".") with true. cbn iota. rewrite W. reflexivity.
Qed.
Lemma ok_field e a m b : post_ok e -> word m -> post_ok (EField [] e [TPunct "." a; TIdent m b]).
Proof.
  intros P W. eapply ok_more; [exact P|reflexivity|reflexivity|reflexivity|]. intros n r N R. toks. sizes.
  cbn [read_post app]. change (Ascii.eqb "." "?") with false. change (Ascii.eqb "." ".") with true. cbn iota. no_kw W. rewrite (proj2 (is_word_iff m) W).
  destruct r as [|[ | | |[ | | | ]] r]; try reflexivity; [|destruct R]. cbn [nopar] in R. rewrite R. reflexivity.
Qed.
Lemma ok_await e a b : post_ok e -> post_ok (EAwait [] e [TPunct "." a; TIdent "await" b]).
Proof. intros P. eapply ok_more; [exact P|reflexivity|reflexivity|reflexivity|]. reflexivity. Qed.
Lemma ok_try e sp : post_ok e -> post_ok (ETry [] e sp).
Proof. intros P. eapply ok_more; [exact P|reflexivity|reflexivity|reflexivity|]. reflexivity. Qed.

Lemma ok_index e sp i : post_ok e -> etoks e <> [] -> starts_block (etoks e) = false -> full_ok i -> post_ok (EIndex [] e sp i).
Proof.
  intros P Ne S F. split; [discriminate|]. intros n r N R _. toks. sizes. rewrite <- app_assoc. cbn [app].
  destruct (proj2 P n (TGroup Bracket (etoks i) sp :: r) ltac:(lia) I (fun _ => I)) as (x & r0 & B & C & _). exists x, r0. split; [exact B|]. split.
  - rewrite C. cbn [read_post]. rewrite S. specialize (F n []). rewrite app_nil_r in F. rewrite F by side. reflexivity.
  - rewrite starts_app, S by exact Ne. discriminate.
Qed.

Ltac atom := cbn [read_atom atom_step app]; repeat match goal with |- context [String.eqb ?x ?k] => is_ground x; is_ground k; let v := eval vm_compute in (String.eqb x k) in change (String.eqb x k) with v end; cbn iota; rewrite <- ?app_assoc; cbn [app].
Lemma ok_block sp b : block_ok b -> post_ok (EBlock [] [] sp b).
Proof. intros B. apply blocky_ok; [reflexivity|reflexivity|]. intros [|n] r N R; toks; sizes; [lia|]. atom. rewrite statements_ok by side. reflexivity. Qed.
Lemma ok_unsafe a sp b : block_ok b -> post_ok (EUnsafe [] [TIdent "unsafe" a] sp b).
Proof. intros B. apply blocky_ok; [reflexivity|reflexivity|]. intros [|n] r N R; toks; sizes; [lia|]. atom. unfold braces. rewrite statements_ok by side. reflexivity. Qed.
Lemma ok_loop a sp b : block_ok b -> post_ok (ELoop [] [TIdent "loop" a] sp b).
Proof. intros B. apply blocky_ok; [reflexivity|reflexivity|]. intros [|n] r N R; toks; sizes; [lia|]. atom. unfold braces. rewrite statements_ok by side. reflexivity. Qed.
Lemma ok_while a c sp b : cond_ok c -> block_ok b -> post_ok (EWhile [] [TIdent "while" a] c sp b).
Proof. intros C B. apply blocky_ok; [reflexivity|reflexivity|]. intros [|n] r N R; toks; sizes; [lia|]. atom. unfold while_step. rewrite C by side. rewrite statements_ok by side. reflexivity. Qed.
Lemma ok_match a e sp ms : oper_ok e -> arms_ok ms -> post_ok (EMatch [] [TIdent "match" a] e sp ms).
Proof. intros C B. apply blocky_ok; [reflexivity|reflexivity|]. intros [|n] r N R; toks; sizes; [lia|]. atom. unfold match_step. rewrite C by side. rewrite match_arms_ok by side. reflexivity. Qed.
Lemma ok_for a pt i e sp b : pat pt -> oper_ok e -> block_ok b -> post_ok (EForLoop [] (TIdent "for" a :: pt ++ [TIdent "in" i]) e sp b).
Proof.
  intros P C B. apply blocky_ok; [reflexivity|reflexivity|]. intros [|n] r N R; toks; sizes; [lia|]. atom. unfold for_step. rewrite pat_read by side. change (String.eqb "in" "in") with true. cbn iota.
  rewrite C by side. rewrite statements_ok by side. reflexivity.
Qed.
Lemma ok_if a c sp b : cond_ok c -> block_ok b -> post_ok (EIf [] [TIdent "if" a] c sp b [] None).
Proof.
  intros C B. apply blocky_ok; [reflexivity|reflexivity|]. intros [|n] r N R; toks; sizes; [lia|]. atom. unfold if_step. rewrite C by side. rewrite statements_ok by side.
  unfold else_step. destruct r as [|[ | | | ] r]; try reflexivity. simpl in R. rewrite R. reflexivity.
Qed.
Lemma ok_else a c sp b d el : cond_ok c -> block_ok b -> post_ok el -> blocky el = true -> etoks el <> [] -> starts_block (etoks el) = true -> post_ok (EIf [] [TIdent "if" a] c sp b [TIdent "else" d] (Some el)).
Proof.
  intros C B E Bl Ne St. apply blocky_ok; [reflexivity|reflexivity|]. intros [|n] r N R; toks; sizes; [lia|]. atom. unfold if_step. rewrite C by side. rewrite statements_ok by side.
  unfold else_step. change (String.eqb "else" "else") with true. cbn iota. rewrite starts_app, St by exact Ne. rewrite (proj1 E Bl) by side. reflexivity.
Qed.
Lemma ok_group d sp es cs e : args_ok es cs -> (forall r, etoks e ++ r = TGroup d (punctuated (map etoks es) cs) sp :: r) -> blocky e = false -> d <> Brace ->
  (forall pe pa r, arguments pe (punctuated (map etoks es) cs) = Some (es, cs) -> atom_step pe pa (TGroup d (punctuated (map etoks es) cs) sp :: r) = Some (e, r)) -> post_ok e.
Proof.
  intros A T B D H. assert (T0 : etoks e = [TGroup d (punctuated (map etoks es) cs) sp]) by (rewrite <- (app_nil_r (etoks e)); apply T).
  apply atom_ok; try (rewrite T0); [destruct d; try reflexivity; congruence|discriminate|exact B|].
  intros [|n] r N R; sizes; [lia|]. cbn [read_atom app]. apply H. apply arguments_ok; [exact A|]. lia.
Qed.
Lemma un_post e : post_start (etoks e) -> post_ok e -> un_ok e.
Proof.
  intros S P n r N R. pose proof (post_start_app _ r S) as S'. unfold un_step. destruct (etoks e ++ r) as [|[ | | | ] l] eqn:Q; try (rewrite <- Q; apply post_read_free; assumption); destruct S'.
Qed.
Lemma un_oper e : etoks e <> [] -> un_ok e -> oper_ok e.
Proof.
  intros Ne U n r N R. unfold oper_step. rewrite U by side. destruct (starts_block _); [reflexivity|]. cbn [read_more]. rewrite stops_op by exact R. reflexivity.
Qed.
Lemma no_amp_app ts r : ts <> [] -> no_amp ts -> no_amp (ts ++ r).
Proof. destruct ts; [congruence|]. intros _ H. exact H. Qed.
Lemma un_no_amp cl e : un cl e -> is_ref e = false -> no_amp (etoks e).
Proof.
  intros [e' P|a e' P|a b e' P|c a e' C P] R; try discriminate R.
  - pose proof (post_solid _ (post_starts _ _ P)) as S. destruct (etoks e') as [|[ | | | ] ]; simpl in *; tauto.
  - cbn. intros ->. simpl in C. intuition discriminate.
Qed.
Lemma or_assoc_range s : In s infixes <-> In s ranges \/ In s operators.
Proof. unfold infixes, ranges. cbn [In]. tauto. Qed.
Lemma binary_range l o s x : spell o = Some s -> In s ranges -> binary l o x = ERange [] (Some l) o (Some x).
Proof.
  intros Sp O. destruct o as [|[ |c a| | ] o]; simpl in Sp; try discriminate; [injection Sp as <-; simpl in O; intuition discriminate|].
  destruct (spell o) as [s'|] eqn:Q; [|discriminate]. simpl in Sp. injection Sp as <-. simpl in O. destruct O as [O|[O|[]]]; injection O as <- <-;
    (destruct o as [|t o]; [discriminate Q|reflexivity]).
Qed.
Lemma binary_plain l o s x : spell o = Some s -> In s operators -> binary l o x = EBinary [] l o x.
Proof.
  intros Sp O. destruct o as [|[ |c a| | ] o]; try reflexivity. simpl in Sp. destruct (spell o) as [s'|] eqn:Q; [|discriminate]. simpl in Sp. injection Sp as <-.
  unfold binary. destruct o as [|t o].
  - destruct (Ascii.eqb_spec c "="); [|reflexivity]. subst c. injection Q as <-. simpl in O. exfalso. intuition discriminate.
  - destruct (Ascii.eqb_spec c "."); [|reflexivity]. subst c. simpl in O. exfalso. intuition discriminate.
Qed.
(** the operators and operands after the first one *)
Fixpoint rest (e : expr) : list (list tt * expr) :=
  match e with EBinary _ l o r | ERange _ (Some l) o (Some r) | EAssign _ l o r => rest l ++ (o, lead r) :: rest r | _ => [] end.
Definition flat (l : list (list tt * expr)) : list tt := flat_map (fun p => fst p ++ etoks (snd p)) l.
Fixpoint grow (e : expr) (l : list (list tt * expr)) : option expr := match l with [] => Some e | (o, u) :: l => match graft e o u with Some e => grow e l | None => None end end.
Lemma un_same cl e : un cl e -> lead e = e /\ rest e = [] /\ lvl e = tight.
Proof. intros [x []| | | ]; auto. Qed.
Lemma level_bound o : level o < tight.
Proof.
  unfold level. destruct (spell o) as [s|]; [|repeat constructor]. destruct (find _ levels) as [p|] eqn:E; [|repeat constructor]. apply find_some in E. destruct E as [E _].
  assert (F : Forall (fun p => snd p < tight) levels) by (unfold levels, tight; repeat constructor; cbn; lia). rewrite Forall_forall in F. apply F, E.
Qed.
Lemma left_le a k : left_ok a k = true -> k <= a.
Proof.
  unfold left_ok. destruct k; [lia|]. intro H. apply orb_true_iff in H. destruct H as [H|H]; [apply Nat.ltb_lt in H; lia|]. apply andb_true_iff in H. destruct H as [H _]. apply Nat.eqb_eq in H. lia.
Qed.
Lemma left_not a k : a < k -> left_ok a k = false.
Proof. intro H. destruct (left_ok a k) eqn:E; [|reflexivity]. apply left_le in E. lia. Qed.
Lemma left_tight k : k < tight -> left_ok tight k = true.
Proof. intro H. unfold left_ok. destruct k; [reflexivity|]. apply orb_true_iff. left. apply Nat.ltb_lt. exact H. Qed.
Lemma oper_un cl e : oper cl e -> lvl e = tight -> un cl e.
Proof. intros [x H|l o s r|l o s r|l a r]; [auto| | |]; cbn [lvl]; intros; exfalso; match goal with H : level ?o = tight |- _ => pose proof (level_bound o); lia end. Qed.
Lemma grow_app a b : forall e, grow e (a ++ b) = match grow e a with Some e => grow e b | None => None end.
Proof. induction a as [|[o u] a IH]; intro e; [reflexivity|]. cbn [app grow]. destruct (graft e o u); [apply IH|reflexivity]. Qed.
Lemma min_levels cl e : oper cl e -> Forall (fun p => lvl e <= level (fst p)) (rest e).
Proof.
  assert (X : forall k a b o (u : expr), k = level o -> k <= a -> k < b -> forall l1 l2, Forall (fun p => a <= level (fst p)) l1 -> Forall (fun p => b <= level (fst p)) l2 -> Forall (fun p : list tt * expr => k <= level (fst p)) (l1 ++ (o, u) :: l2)).
  { intros k a b o u K A B l1 l2 F1 F2. apply Forall_app. split; [eapply Forall_impl; [|exact F1]; cbn beta; lia|]. constructor; [cbn [fst]; lia|]. eapply Forall_impl; [|exact F2]; cbn beta; lia. }
  induction 1 as [e U|l o s r Ol IH SB Sp O Lo Or IHr Lr A|l o s r Ol IH SB Sp O Lo Or IHr Lr|l a r U SB Or IHr Lr]; cbn [rest lvl].
  - destruct (un_same _ _ U) as (_ & -> & _). constructor.
  - apply (X _ (lvl l) (lvl r)); auto using left_le.
  - apply (X _ (lvl l) (lvl r)); auto using left_le.
  - destruct (un_same _ _ U) as (_ & -> & _). apply (X _ (lvl r) (lvl r) [TPunct "=" a] (lead r) eq_refl); [change (level [TPunct "=" a]) with 0; lia|exact Lr|constructor|exact IHr].
Qed.
Lemma grow_under (f : expr -> expr) k : (forall x o u, k < level o -> graft (f x) o u = option_map f (graft x o u)) ->
  forall l x, Forall (fun p => k < level (fst p)) l -> grow (f x) l = option_map f (grow x l).
Proof.
  intros H l. induction l as [|[o u] l IH]; intros x F; [reflexivity|]. inversion F as [|? ? F1 F2]; subst. cbn [grow]. cbn [fst] in F1. rewrite H by exact F1. destruct (graft x o u); [apply IH, F2|reflexivity].
Qed.
Lemma grow_flat cl e : oper cl e -> grow (lead e) (rest e) = Some e.
Proof.
  assert (X : forall l o r f, oper cl r -> grow (lead l) (rest l) = Some l -> grow (lead r) (rest r) = Some r -> starts_block (etoks l) = false -> left_ok (lvl l) (level o) = true -> level o < lvl r ->
    (forall x, binary l o x = f x) -> (forall x o' u, level o < level o' -> graft (f x) o' u = option_map f (graft x o' u)) -> grow (lead l) (rest l ++ (o, lead r) :: rest r) = Some (f r)).
  { intros l o r f Or G1 G2 SB Lo Lr B Gf. rewrite grow_app, G1. cbn [grow].
    assert (Q : graft l o (lead r) = Some (f (lead r))) by (destruct l; cbn [graft]; rewrite Lo, SB, B; reflexivity). rewrite Q.
    rewrite (grow_under f (level o)); [rewrite G2; reflexivity|exact Gf|]. eapply Forall_impl; [|apply (min_levels cl); exact Or]. cbn beta. lia. }
  assert (Lt : forall a b, a < b -> Nat.ltb a b = true) by (intros; apply Nat.ltb_lt; assumption).
  induction 1 as [e U|l o s r Ol IH SB Sp O Lo Or IHr Lr A|l o s r Ol IH SB Sp O Lo Or IHr Lr|l a r U SB Or IHr Lr]; cbn [rest lead].
  - destruct (un_same _ _ U) as (-> & -> & _). reflexivity.
  - apply (X l o r (EBinary [] l o)); auto; [intro x; exact (binary_plain _ _ _ _ Sp O)|]. intros x o' u L. cbn [graft lvl]. rewrite left_not, Lt by exact L. reflexivity.
  - apply (X l o r (fun x => ERange [] (Some l) o (Some x))); auto; [intro x; exact (binary_range _ _ _ _ Sp O)|]. intros x o' u L. cbn [graft lvl]. rewrite left_not, Lt by exact L. reflexivity.
  - destruct (un_same _ _ U) as (El & Er & Ll). apply (X l [TPunct "=" a] r (EAssign [] l [TPunct "=" a])); auto; [rewrite El, Er; reflexivity|rewrite Ll; reflexivity|].
    intros x o' u L. cbn [graft lvl]. rewrite left_not, Lt by exact L. reflexivity.
Qed.
Lemma flat_toks cl e : oper cl e -> etoks e = etoks (lead e) ++ flat (rest e).
Proof.
  induction 1 as [e U|l o s r Ol IH SB Sp O Lo Or IHr Lr A|l o s r Ol IH SB Sp O Lo Or IHr Lr|l a r U SB Or IHr Lr]; cbn [rest lead].
  - destruct (un_same _ _ U) as (-> & -> & _). cbn. rewrite app_nil_r. reflexivity.
  - unfold flat in *. rewrite flat_map_app. cbn [flat_map fst snd]. toks. rewrite IH, IHr at 1. rewrite <- !app_assoc. reflexivity.
  - unfold flat in *. rewrite flat_map_app. cbn [flat_map fst snd]. toks. rewrite IH, IHr at 1. rewrite <- !app_assoc. reflexivity.
  - destruct (un_same _ _ U) as (El & Er & _). rewrite El, Er. unfold flat in *. cbn [app flat_map fst snd]. toks. rewrite IHr at 1. reflexivity.
Qed.
Lemma op_free o s r : spell o = Some s -> s = "=" \/ In s infixes -> free (o ++ r).
Proof.
  intros Sp O. destruct o as [|[ |c y| | ] o]; simpl in Sp; try discriminate.
  - injection Sp as <-. destruct O as [O|O]; [discriminate|simpl in O; intuition discriminate].
  - assert (Nd : c = "."%char -> dot o = true).
    { intros ->. destruct o as [|[ |d z| | ] o]; simpl in Sp; try discriminate; [injection Sp as <-; destruct O as [O|O]; [discriminate|simpl in O; intuition discriminate]|].
      destruct (spell o) as [s'|]; [|discriminate]. simpl in Sp. injection Sp as <-. destruct O as [O|O]; [discriminate|]. simpl in O.
      destruct O as [O|[O|O]]; [injection O as <- _; reflexivity|injection O as <- _; reflexivity|exfalso; intuition discriminate]. }
    assert (Nc : forall k, In k [":"; "?"]%char -> Ascii.eqb c k = false).
    { intros k K. apply Ascii.eqb_neq. intros ->. (destruct (spell o) as [s'|]; [|discriminate]); simpl in Sp; injection Sp as <-.
      destruct K as [<-|[<-|[]]]; (destruct O as [O|O]; [discriminate|]); simpl in O; intuition discriminate. }
    split; [apply Nc; simpl; auto|]. split; [exact I|]. split; [|exact I]. cbn [app goes_on]. rewrite (Nc "?"%char) by (simpl; auto). cbn [orb].
    destruct (Ascii.eqb_spec c "."); [|reflexivity]. specialize (Nd e). destruct o as [|[ |d z| | ] o]; try discriminate Nd. cbn [app dot]. cbn [dot] in Nd. rewrite Nd. reflexivity.
Qed.
Definition item_ok (p : list tt * expr) : Prop :=
  un_ok (snd p) /\ un_start (etoks (snd p)) /\ exists s, spell (fst p) = Some s /\ (s = "=" \/ In s infixes) /\ (s = "&" -> no_amp (etoks (snd p))).
Lemma more_read n r : stops r -> forall l e e' k, Forall item_ok l -> grow e l = Some e' -> 2 * size (flat l) <= n -> List.length (flat l) < k -> read_more (read_expr n) (read_atom n) k (flat l ++ r) e = Some (e', r).
Proof.
  intro R. induction l as [|[o u] l IH]; intros e e' [|k] F G N K; try lia; cbn [read_more].
  - cbn [flat flat_map app]. rewrite stops_op by exact R. injection G as <-. reflexivity.
  - inversion F as [|? ? (U & Us & s & Sp & O & A) F2]; subst. cbn [fst snd] in *. unfold flat in *. cbn [flat_map fst snd] in *. sizes. rewrite <- !app_assoc. rewrite !app_length in K.
    pose proof (full_nonempty _ (un_full_start _ Us)) as Ne.
    rewrite (op_read o s); auto using un_start_app; [|intro Q; apply no_amp_app; auto].
    rewrite U; [|lia|].
    + cbn [grow] in G. destruct (graft e o u) as [e1|]; [|discriminate]. apply IH; auto; [lia|]. destruct (etoks u); [congruence|cbn [List.length] in K; lia].
    + destruct l as [|[o2 u2] l]; [cbn [flat_map app]; apply stops_free, R|]. cbn [flat_map fst snd]. rewrite <- !app_assoc. inversion F2 as [|? ? (_ & _ & s2 & Sp2 & O2 & _) _]; subst. eapply op_free; eassumption.
Qed.
Lemma chain_ok cl e : oper cl e -> un_ok (lead e) -> Forall item_ok (rest e) -> starts_block (etoks e) = false \/ rest e = [] -> oper_ok e.
Proof.
  intros H U F St n r N R. pose proof (flat_toks _ _ H) as T. pose proof (grow_flat _ _ H) as G. pose proof (oper_nonempty _ _ H) as Ne.
  unfold oper_step. rewrite starts_app by exact Ne. rewrite T in N |- * at 1. sizes. rewrite <- app_assoc. rewrite U; [|lia|].
  - destruct St as [->|E].
    + apply more_read; auto; [lia|]. rewrite app_length. lia.
    + rewrite E in *. cbn [flat flat_map app]. injection G as ->. destruct (starts_block _); [reflexivity|]. cbn [read_more]. rewrite stops_op by exact R. reflexivity.
  - destruct (rest e) as [|[o u] l]; [cbn [flat flat_map app]; apply stops_free, R|]. inversion F as [|? ? (_ & _ & s & Sp & O & _) _]; subst. cbn [flat flat_map fst snd]. rewrite <- !app_assoc. eapply op_free; eassumption.
Qed.
Lemma early_ok cl n e r : full cl e -> full_ok e -> (post cl e -> post_ok e) -> (blocky e = true -> noelse r /\ goes_on r = false) -> (blocky e = false -> closed r) -> 2 * size (etoks e) < n ->
  early (read_expr n) (read_atom n) (etoks e ++ r) = Some (e, r).
Proof.
  intros F FO PO R1 R2 N. unfold early. destruct (starts_block (etoks e ++ r)) eqn:SB.
  - pose proof (full_block_post _ _ _ F SB) as P. destruct (blocky e) eqn:Bl.
    + destruct (R1 eq_refl) as [R3 R4]. rewrite (proj1 (PO P) Bl) by side. rewrite R4. reflexivity.
    + pose proof (stops_free _ (closed_stops _ (R2 eq_refl))) as Fr. destruct (proj2 (PO P) n r ltac:(lia) (proj1 Fr) (fun _ => proj1 (proj2 Fr))) as (x & r0 & A & C & D). rewrite A, (D SB Bl), C. apply read_post_free, Fr.
  - apply FO; [exact N|]. apply R2. destruct (blocky e) eqn:Bl; [|reflexivity]. pose proof (blocky_post _ _ F Bl) as P. pose proof (blocky_starts _ _ P Bl) as Q.
    rewrite starts_app in SB by (eapply full_nonempty, full_starts, F). congruence.
Qed.
Lemma full_not_let ts : full_start ts -> match ts with TIdent x _ :: _ => String.eqb x "let" = false | _ => True end.
Proof.
  destruct ts as [|[x ? | | | ] l]; auto. intros [H|[H|W]]; [| |kw]; simpl in H; repeat (destruct H as [<-|H]; [reflexivity|]); destruct H.
Qed.
(** a statement that does not begin with [let] *)
Lemma stmt_step n k ts : full_start ts -> read_stmts (read_expr n) (read_atom n) (S k) ts = expr_stmt_step (read_expr n) (read_atom n) (read_stmts (read_expr n) (read_atom n) k) ts.
Proof.
  intro S. pose proof (full_not_let _ S) as L. destruct ts as [|[x ? | | | ] l]; try reflexivity; [destruct S|]. cbn [read_stmts]. rewrite L. reflexivity.
Qed.
Lemma ok_semi cl e sp b : full cl e -> full_ok e -> (post cl e -> post_ok e) -> block_ok b -> block_ok (SExpr e (Some sp) :: b).
Proof.
  intros F FO PO [L B]. pose proof (full_starts _ _ F) as S. split.
  - toks. rewrite !app_length. simpl. lia.
  - intros n [|k] N K; [lia|]. toks. rewrite <- app_assoc in *. cbn [app] in *. sizes. simpl in K. rewrite stmt_step by (apply full_start_app; exact S).
    unfold expr_stmt_step. rewrite (early_ok cl) by side. unfold ends. change (Ascii.eqb ";" ";") with true. cbn iota. rewrite B by side. reflexivity.
Qed.
Lemma block_start_noelse ts : block_start ts -> noelse ts /\ goes_on ts = false.
Proof.
  destruct ts as [|[x ? |c ?| | ] l]; simpl; auto.
  - intros [->|[H|[H|W]]]; (split; [|reflexivity]); [reflexivity| | |kw]; repeat (destruct H as [<-|H]; [reflexivity|]); destruct H.
  - intros H. split; [exact I|]. repeat (destruct H as [<-|H]; [reflexivity|]). destruct H as [->|H]; [reflexivity|]. repeat (destruct H as [<-|H]; [reflexivity|]). destruct H.
Qed.
Lemma ok_last cl e : full cl e -> full_ok e -> (post cl e -> post_ok e) -> block_ok [SExpr e None].
Proof.
  intros F FO PO. pose proof (full_starts _ _ F) as S. split.
  - toks. rewrite !app_nil_r. pose proof (full_nonempty _ S). destruct (etoks e); simpl in *; [congruence|lia].
  - intros n [|k] N K; [lia|]. toks. rewrite !app_nil_r in *. simpl in K. rewrite stmt_step by exact S. unfold expr_stmt_step.
    pose proof (early_ok cl n e [] F FO PO (fun _ => conj I eq_refl) (fun _ => I) N) as Q. rewrite app_nil_r in Q. rewrite Q. reflexivity.
Qed.
Lemma ok_blocky cl e b : post cl e -> full_ok e -> post_ok e -> blocky e = true -> block_start (flat_map stoks b) -> block_ok b -> block_ok (SExpr e None :: b).
Proof.
  intros P FO PO Bl BS [L B]. pose proof (f_oper _ _ (o_un _ _ (u_post _ _ P))) as F. pose proof (full_starts _ _ F) as S. split.
  - toks. rewrite !app_length. simpl. pose proof (full_nonempty _ S). destruct (etoks e); simpl in *; [congruence|lia].
  - intros n [|k] N K; [lia|]. toks. rewrite app_nil_r in *. sizes. simpl in K. rewrite stmt_step by (apply full_start_app; exact S). unfold expr_stmt_step.
    pose proof (block_start_noelse _ BS) as R. rewrite (early_ok cl) by (auto; try lia; congruence). unfold ends. rewrite Bl. specialize (B n k ltac:(lia) ltac:(lia)).
    destruct (flat_map stoks b) as [|[ |c ? | | ] l] eqn:Q; try (rewrite B; reflexivity).
    + destruct k; [lia|]. simpl in B. injection B as <-. reflexivity.
    + destruct (Ascii.eqb_spec c ";"); [|rewrite B; reflexivity]. subst c. simpl in BS. exfalso. repeat (destruct BS as [BS|BS]; [discriminate|]). destruct BS.
Qed.
Lemma ok_let a pt c e d b : pat pt -> full_ok e -> block_ok b -> block_ok (SLocalInit [] (TIdent "let" a :: pt ++ [TPunct "=" c]) e [] None [TPunct ";" d] :: b).
Proof.
  intros P F [L B]. split.
  - toks. cbn [List.length]. rewrite !app_length. lia.
  - intros n [|k] N K; [lia|]. toks. rewrite <- ?app_assoc in *. cbn [app] in *. sizes. simpl in K.
    cbn [read_stmts]. change (String.eqb "let" "let") with true. cbn iota. unfold let_step. rewrite pat_read by side.
    change (Ascii.eqb "=" "=") with true. cbn iota. rewrite F by side. unfold let_ends. change (Ascii.eqb ";" ";") with true. cbn iota. rewrite B by side. reflexivity.
Qed.
Lemma expr_step_oper pe pa ts : un_start ts -> expr_step pe pa ts = oper_step pe pa ts.
Proof.
  destruct ts as [|[x ?|c ?| | ] r]; try reflexivity; cbn [expr_step un_start].
  - intros [H|W].
    + simpl in H. repeat (destruct H as [<-|H]; [reflexivity|]). destruct H.
    + no_kw W. reflexivity.
  - intros [H _]. destruct (Ascii.eqb_spec c "|"); [|reflexivity]. subst c. simpl in H. exfalso. repeat (destruct H as [H|H]; [discriminate|]). destruct H.
Qed.
Lemma ok_local a pt d b : pat pt -> block_ok b -> block_ok (SLocal [] (TIdent "let" a :: pt) [TPunct ";" d] :: b).
Proof.
  intros P [L B]. split.
  - toks. cbn [List.length]. rewrite !app_length. lia.
  - intros n [|k] N K; [lia|]. toks. rewrite <- ?app_assoc in *. cbn [app] in *. sizes. simpl in K.
    cbn [read_stmts]. change (String.eqb "let" "let") with true. cbn iota. unfold let_step. rewrite pat_read by side.
    change (Ascii.eqb ";" "=") with false. change (Ascii.eqb ";" ";") with true. cbn iota. rewrite B by side. reflexivity.
Qed.
Lemma ok_let_else a pt c e w sp eb d b : pat pt -> post_start (etoks e) -> post_ok e -> is_post e = true -> starts_block (etoks e) = false -> block_ok eb -> block_ok b ->
  block_ok (SLocalInit [] (TIdent "let" a :: pt ++ [TPunct "=" c]) e [TIdent "else" w] (Some (EBlock [] [] sp eb)) [TPunct ";" d] :: b).
Proof.
  intros P St F Ip Sb Eb [L B]. split.
  - toks. cbn [List.length]. rewrite !app_length. lia.
  - intros n [|k] N K; [lia|]. toks. repeat (rewrite <- ?app_assoc in *; cbn [app] in * ). sizes. simpl in K.
    cbn [read_stmts]. change (String.eqb "let" "let") with true. cbn iota. unfold let_step. rewrite pat_read by side.
    change (Ascii.eqb "=" "=") with true. cbn iota.
    destruct n as [|n]; [lia|].
    assert (Q : read_expr (S n) (etoks e ++ TIdent "else" w :: TGroup Brace (flat_map stoks eb) sp :: TPunct ";" d :: flat_map stoks b) = Some (e, TIdent "else" w :: TGroup Brace (flat_map stoks eb) sp :: TPunct ";" d :: flat_map stoks b)).
    { cbn [read_expr]. rewrite expr_step_oper by (apply un_start_app, post_un_start, St). unfold oper_step.
      assert (Q : un_step (read_expr n) (read_atom n) (etoks e ++ TIdent "else" w :: TGroup Brace (flat_map stoks eb) sp :: TPunct ";" d :: flat_map stoks b) =
        Some (e, TIdent "else" w :: TGroup Brace (flat_map stoks eb) sp :: TPunct ";" d :: flat_map stoks b)).
      { pose proof (post_read e n (TIdent "else" w :: TGroup Brace (flat_map stoks eb) sp :: TPunct ";" d :: flat_map stoks b) F ltac:(lia) I ltac:(congruence)) as Q.
        apply (post_start_app _ (TIdent "else" w :: TGroup Brace (flat_map stoks eb) sp :: TPunct ";" d :: flat_map stoks b)) in St. unfold un_step.
        destruct (etoks e ++ _) as [|[ | | | ] l]; try exact Q; destruct St. }
      rewrite Q. match goal with |- (if ?b then _ else _) = _ => destruct b; reflexivity end. }
    rewrite Q. unfold let_ends. change (String.eqb "else" "else") with true. rewrite Ip, Sb. cbn [andb negb starts_brace]. cbn iota.
    assert (R : read_atom (S n) (TGroup Brace (flat_map stoks eb) sp :: TPunct ";" d :: flat_map stoks b) = Some (EBlock [] [] sp eb, TPunct ";" d :: flat_map stoks b)).
    { atom. rewrite statements_ok by side. reflexivity. }
    rewrite R. change (Ascii.eqb ";" ";") with true. cbn iota. rewrite B by side. reflexivity.
Qed.
Definition guard_ok (i : list tt) (gd : option expr) : Prop :=
  forall n r q g, 2 * size (i ++ opt_toks etoks gd) <= n -> r = TPunct "=" q :: TPunct ">" g :: tl (tl r) -> read_guard (read_expr n) (read_atom n) (i ++ opt_toks etoks gd ++ r) = Some (i, gd, r).
Lemma guard_none : guard_ok [] None.
Proof. intros n r q g N ->. reflexivity. Qed.
Lemma guard_if a e : oper_ok e -> guard_ok [TIdent "if" a] (Some e).
Proof.
  intros O n r q g N R. cbn [opt_toks app read_guard] in *. sizes. change (String.eqb "if" "if") with true. cbn iota. rewrite O; [reflexivity|lia|]. rewrite R. left. reflexivity.
Qed.
Definition armt (pt i : list tt) (gd : option expr) (q g : span) (e : expr) (cm : list tt) : list tt := pt ++ i ++ opt_toks etoks gd ++ TPunct "=" q :: TPunct ">" g :: etoks e ++ cm.
Lemma armtoks_eq pt i gd q g e cm : armtoks (an_arm pt i gd q g e cm) = armt pt i gd q g e cm.
Proof. reflexivity. Qed.
Lemma guard_stop cl i gd q g r : guard cl i gd -> match i ++ opt_toks etoks gd ++ TPunct "=" q :: TPunct ">" g :: r with t :: _ => pat_tok t = false | [] => True end.
Proof. intros []; reflexivity. Qed.
Lemma arm_read cl n k pt i gd q g e t ts : pat pt -> guard cl i gd -> guard_ok i gd -> t = armt pt i gd q g e ts -> 2 * size (i ++ opt_toks etoks gd) <= n -> early (read_expr n) (read_atom n) (etoks e ++ ts) = Some (e, ts) ->
  read_arms (read_expr n) (read_atom n) (S k) t = arm_ends (read_arms (read_expr n) (read_atom n) k) pt i gd q g e ts.
Proof.
  intros P G GO -> N H. unfold armt. cbn [read_arms]. rewrite pat_read by (auto; eapply guard_stop, G). rewrite (GO n _ q g) by (auto; reflexivity). unfold arm_step. change (arrow "=" ">") with true. cbn iota. rewrite H.
  destruct (pt ++ _) eqn:Q; [|reflexivity]. apply app_eq_nil in Q. destruct Q as [-> _]. destruct P.
Qed.
Lemma arms_start ms cl : arms cl ms -> noelse (flat_map armtoks ms) /\ goes_on (flat_map armtoks ms) = false /\ match flat_map armtoks ms with TPunct c _ :: _ => c <> ","%char | _ => True end.
Proof.
  intros []; cbn [flat_map]; [repeat split| | |]; rewrite armtoks_eq; unfold armt; rewrite <- ?app_assoc; apply pat_starts; assumption.
Qed.
Ltac armside := rewrite ?app_length; cbn [List.length]; lia.
Lemma ok_m_last cl pt i gd q g e : pat pt -> guard cl i gd -> guard_ok i gd -> full cl e -> full_ok e -> (post cl e -> post_ok e) -> arms_ok [an_arm pt i gd q g e []].
Proof.
  intros P G GO F FO PO. unfold arms_ok. cbn [flat_map]. rewrite armtoks_eq, !app_nil_r. pose proof (pat_size _ P) as Pz. split.
  - unfold armt. rewrite app_length. simpl. lia.
  - intros n [|k] N K; [lia|]. unfold armt in N. rewrite !app_nil_r in N. sizes. erewrite (arm_read cl); [|exact P|exact G|exact GO|reflexivity|sizes; lia|apply (early_ok cl); auto; try lia; try (intros; exact I); repeat split]. reflexivity.
Qed.
Lemma ok_m_comma cl pt i gd q g e c ms : pat pt -> guard cl i gd -> guard_ok i gd -> full cl e -> full_ok e -> (post cl e -> post_ok e) -> arms_ok ms -> arms_ok (an_arm pt i gd q g e [TPunct "," c] :: ms).
Proof.
  intros P G GO F FO PO [L B]. unfold arms_ok. cbn [flat_map]. rewrite armtoks_eq. unfold armt. repeat (rewrite <- ?app_assoc; cbn [app]). pose proof (pat_size _ P) as Pz. split.
  - rewrite app_length, app_length, app_length. cbn [List.length]. rewrite app_length. simpl. lia.
  - intros n [|k] N K; [lia|]. sizes. simpl in K. erewrite (arm_read cl); [|exact P|exact G|exact GO|reflexivity|sizes; lia|apply (early_ok cl); auto; try lia; [repeat split|left; reflexivity]].
    unfold arm_ends. change (Ascii.eqb "," ",") with true. cbn iota. rewrite B by lia. reflexivity.
Qed.
Lemma ok_m_blocky cl pt i gd q g e ms : pat pt -> guard cl i gd -> guard_ok i gd -> post cl e -> full_ok e -> post_ok e -> blocky e = true -> arms cl ms -> arms_ok ms -> arms_ok (an_arm pt i gd q g e [] :: ms).
Proof.
  intros P G GO Pe FO PO Bl A [L B]. pose proof (f_oper _ _ (o_un _ _ (u_post _ _ Pe))) as F. unfold arms_ok. cbn [flat_map]. rewrite armtoks_eq. unfold armt. rewrite app_nil_r. repeat (rewrite <- ?app_assoc; cbn [app]). split.
  - rewrite app_length, app_length, app_length. cbn [List.length]. rewrite app_length. lia.
  - intros n [|k] N K; [lia|]. sizes. simpl in K. destruct (arms_start _ _ A) as (A1 & A2 & A3). erewrite (arm_read cl); [|exact P|exact G|exact GO|reflexivity|sizes; lia|apply (early_ok cl); auto; try lia; congruence].
    unfold arm_ends. rewrite Bl. specialize (B n k ltac:(lia) ltac:(lia)).
    destruct (flat_map armtoks ms) as [|[ |c ? | | ] l] eqn:Q; try (rewrite B; reflexivity).
    + destruct k; [lia|]. simpl in B. injection B as <-. reflexivity.
    + destruct (Ascii.eqb_spec c ","); [contradiction|]. rewrite B. reflexivity.
Qed.
Lemma fok_oper e : un_start (etoks e) -> oper_ok e -> full_ok e.
Proof. intros S O [|n] r N R; [lia|]. cbn [read_expr]. rewrite expr_step_oper by (apply un_start_app; exact S). apply O; side. Qed.
Lemma value_read mk e n r : post_start (etoks e) -> post_ok e -> 2 * size (etoks e) <= n -> closed r -> return_step (read_expr n) (read_atom n) mk (etoks e ++ r) = Some (mk (Some e), r).
Proof.
  intros S P N R. unfold return_step.
  pose proof (post_start_app _ r S) as S'. assert (Q : post_step (read_expr n) (read_atom n) (etoks e ++ r) = Some (e, r)) by (apply post_read_free; auto using closed_free).
  destruct (etoks e ++ r) as [|[ | | | ] l]; try (rewrite Q; reflexivity); destruct S'.
Qed.
Lemma fok_return sp e : post_start (etoks e) -> post_ok e -> full_ok (EReturn [] sp (Some e)).
Proof.
  intros S P [|n] r N R; [lia|]. toks. sizes. cbn [read_expr expr_step]. change (String.eqb "return" "return") with true. cbn iota. apply value_read; side.
Qed.
Lemma fok_break sp e : post_start (etoks e) -> post_ok e -> full_ok (EBreak [] [TIdent "break" sp] (Some e)).
Proof.
  intros S P [|n] r N R; [lia|]. toks. sizes. cbn [read_expr expr_step]. change (String.eqb "break" "return") with false. change (String.eqb "break" "break") with true. cbn iota. apply (value_read (EBreak [] [TIdent "break" sp])); side.
Qed.
Lemma fok_lambda a ps b e : params ps -> etoks e <> [] -> post_ok e -> starts_block (etoks e) = false -> full_ok (EClosure [] (TPunct "|" a :: ps ++ [TPunct "|" b]) RetNone e).
Proof.
  intros Pp Ne P Sb [|n] r N R; [lia|]. toks. repeat (rewrite <- ?app_assoc in *; cbn [app] in * ). sizes. cbn [read_expr expr_step]. change (Ascii.eqb "|" "|") with true. cbn iota. unfold closure_step.
  rewrite take_all by (auto; reflexivity). change (Ascii.eqb "|" "|") with true. cbn [andb].
  assert (Q : post_step (read_expr n) (read_atom n) (etoks e ++ r) = Some (e, r)) by (apply post_read_free; auto using closed_free; lia).
  assert (Z : starts_block (etoks e ++ r) = false) by (rewrite starts_app by exact Ne; exact Sb).
  destruct (etoks e ++ r) as [|[ | | |[ | | | ]] l]; try discriminate Z; cbn [andb negb]; rewrite ?Z, Q; reflexivity.
Qed.
Lemma cond_oper e : un_start (etoks e) -> oper_ok e -> cond_ok e.
Proof.
  intros S O n r N R. specialize (O n r N R). apply (un_start_app _ r) in S. unfold cond_step. destruct (etoks e ++ r) as [|[x ?| | | ] l]; try exact O.
  replace (String.eqb x "let") with false; [exact O|]. symmetry. destruct S as [H|W]; [|kw]. simpl in H. repeat (destruct H as [<-|H]; [reflexivity|]). destruct H.
Qed.
Lemma cond_let_ok a pt q e : pat pt -> un_ok e -> cond_ok (ELet [] (TIdent "let" a :: pt ++ [TPunct "=" q]) e).
Proof.
  intros P U n r N R. toks. rewrite <- ?app_assoc in *. cbn [app] in *. sizes. unfold cond_step. change (String.eqb "let" "let") with true. cbn iota. rewrite pat_read by side.
  change (Ascii.eqb "=" "=") with true. cbn iota. rewrite U by side. reflexivity.
Qed.
Lemma un_ref a e : post_start (etoks e) -> post_ok e -> un_ok (EReference [] [TPunct "&" a] e).
Proof.
  intros S P n r N R. toks. sizes. unfold un_step. change (Ascii.eqb "&" "&") with true. cbn iota.
  assert (Q : post_step (read_expr n) (read_atom n) (etoks e ++ r) = Some (e, r)) by (apply post_read_free; side). apply (post_start_app _ r) in S.
  destruct (etoks e ++ r) as [|[x ?| | | ] l]; try (rewrite Q; reflexivity). replace (String.eqb x "mut") with false; [rewrite Q; reflexivity|].
  symmetry. destruct S as [H|W]; [|kw]. simpl in H. repeat (destruct H as [<-|H]; [reflexivity|]). destruct H.
Qed.
Lemma un_refmut a b e : post_ok e -> un_ok (EReference [] [TPunct "&" a; TIdent "mut" b] e).
Proof. intros P n r N R. toks. sizes. unfold un_step. change (Ascii.eqb "&" "&") with true. change (String.eqb "mut" "mut") with true. cbn iota. rewrite post_read_free by side. reflexivity. Qed.
Lemma un_prefix c a e : In c prefixes -> post_ok e -> un_ok (EUnary [] [TPunct c a] e).
Proof.
  intros C P n r N R. toks. sizes. unfold un_step. replace (Ascii.eqb c "&") with false by (simpl in C; repeat (destruct C as [<-|C]; [reflexivity|]); destruct C).
  replace (existsb (Ascii.eqb c) prefixes) with true by (simpl in C; repeat (destruct C as [<-|C]; [reflexivity|]); destruct C). rewrite post_read_free by side. reflexivity.
Qed.
Definition chained (cl : bool) (e : expr) : Prop := oper_ok e /\ (post cl e -> post_ok e) /\ un cl (lead e) /\ un_ok (lead e) /\ Forall item_ok (rest e).
Lemma chain_step cl l o s r : chained cl l -> chained cl r -> spell o = Some s -> s = "=" \/ In s infixes -> (s = "&" -> is_ref (lead r) = false) -> Forall item_ok (rest l ++ (o, lead r) :: rest r).
Proof.
  intros (_ & _ & _ & _ & L) (_ & _ & Ur & Ro & R) Sp O A. apply Forall_app. split; [exact L|]. constructor; [|exact R]. split; [exact Ro|]. split; [eapply un_starts; exact Ur|].
  exists s. split; [exact Sp|]. split; [exact O|]. intro Q. apply (un_no_amp cl); [exact Ur|exact (A Q)].
Qed.
Definition with_post (cl : bool) (P : expr -> Prop) (e : expr) : Prop := P e /\ (post cl e -> post_ok e).
Lemma trees_ok cl :
  (forall e, post cl e -> post_ok e) /\ (forall e, un cl e -> with_post cl un_ok e) /\ (forall e, oper cl e -> chained cl e) /\ (forall e, cond cl e -> cond_ok e) /\
  (forall e, full cl e -> with_post cl full_ok e) /\ (forall es cs, args cl es cs -> args_ok es cs) /\ (forall ms, arms cl ms -> arms_ok ms) /\ (forall i gd, guard cl i gd -> guard_ok i gd) /\ (forall b, block cl b -> block_ok b).
Proof.
  apply (tree_mut cl post_ok (with_post cl un_ok) (chained cl) cond_ok (with_post cl full_ok) args_ok arms_ok guard_ok block_ok).
  - intros. apply ok_name. assumption.
  - intros. apply ok_far; assumption.
  - intros. apply atom_ok; try reflexivity; [discriminate|]. intros [|n] r N R; toks; sizes; [lia|reflexivity].
  - intros. apply atom_ok; try reflexivity; [discriminate|]. intros [|n] r N R; toks; sizes; [lia|reflexivity].
  - intros sp e F [FO _]. assert (A : args_ok [e] []).
    { pose proof (full_starts _ _ F) as S. pose proof (full_nonempty _ S) as Ne. unfold args_ok. cbn [map punctuated]. rewrite app_nil_r. split; [destruct (etoks e); simpl; [congruence|lia]|].
      intros n [|k] N K; [lia|]. specialize (FO n [] N I). rewrite app_nil_r in FO. cbn [read_args]. destruct (etoks e); [congruence|]. rewrite FO. reflexivity. }
    apply (ok_group Parenth sp [e] []); auto; try discriminate.
    + intro r. toks. cbn [map punctuated]. rewrite app_nil_r. reflexivity.
    + intros pe pa r H. cbn [atom_step]. rewrite H. reflexivity.
  - intros sp es cs A AO C. apply (ok_group Parenth sp es cs); auto; try discriminate. intros pe pa r H. cbn [atom_step]. rewrite H. destruct cs; [congruence|]. destruct es as [|? [|]]; reflexivity.
  - intros sp es cs A AO. apply (ok_group Bracket sp es cs); auto; try discriminate. intros pe pa r H. cbn [atom_step]. rewrite H. reflexivity.
  - intros. apply ok_call; assumption.
  - intros. apply ok_call_far; assumption.
  - intros. apply ok_method; assumption.
  - intros. apply ok_turbo; assumption.
  - intros. apply ok_field; assumption.
  - intros. apply ok_nth; assumption.
  - intros. apply ok_await; assumption.
  - intros. apply ok_try; assumption.
  - intros e sp i P PO S F [FO _]. apply ok_index; auto. eapply full_nonempty, un_full_start, post_un_start, post_starts; exact P.
  - intros. apply ok_block; assumption.
  - intros. apply ok_unsafe; assumption.
  - intros. apply ok_if; assumption.
  - intros. apply ok_else; try assumption; [eapply full_nonempty, un_full_start, post_un_start, post_starts; eassumption|eapply blocky_starts; eassumption].
  - intros a e sp ms O [OO _] A AO. apply ok_match; assumption.
  - intros. apply ok_loop; assumption.
  - intros. apply ok_while; assumption.
  - intros a pt i e sp b P O [OO _] B BO. apply ok_for; assumption.
  - intros e P PO. split; [|auto]. apply un_post; [eapply post_starts; exact P|exact PO].
  - intros a e P PO. split; [|intro Q; inversion Q]. apply un_ref; [eapply post_starts; exact P|exact PO].
  - intros a b e P PO. split; [|intro Q; inversion Q]. apply un_refmut; exact PO.
  - intros c a e C P PO. split; [|intro Q; inversion Q]. apply un_prefix; [exact C|exact PO].
  - intros e U [UO PO]. destruct (un_same _ _ U) as (El & Er & _). split; [|split; [exact PO|rewrite El, Er; auto]]. apply un_oper; [eapply un_nonempty; exact U|exact UO].
  - intros l o s r Ol Hl St Sp O Lo Or Hr Lr A. pose proof (chain_step _ _ _ _ _ Hl Hr Sp (or_intror (proj2 (or_assoc_range s) (or_intror O))) A) as C.
    split; [|split; [intro Q; inversion Q|split; [|split; [|exact C]]]]; [|apply Hl..]. apply (chain_ok cl); [econstructor; eassumption|apply Hl|exact C|]. left. toks. rewrite starts_app by (eapply oper_nonempty; exact Ol). exact St.
  - intros l o s r Ol Hl St Sp O Lo Or Hr Lr. assert (A : s = "&" -> is_ref (lead r) = false) by (intros ->; simpl in O; intuition discriminate).
    pose proof (chain_step _ _ _ _ _ Hl Hr Sp (or_intror (proj2 (or_assoc_range s) (or_introl O))) A) as C.
    split; [|split; [intro Q; inversion Q|split; [|split; [|exact C]]]]; [|apply Hl..]. apply (chain_ok cl); [eapply o_range; eassumption|apply Hl|exact C|]. left. toks. rewrite starts_app by (eapply oper_nonempty; exact Ol). exact St.
  - intros l a r Ul [UO PO] St Or Hr Lr. destruct (un_same _ _ Ul) as (El & Er & _).
    assert (Hl : chained cl l) by (split; [apply un_oper; [eapply un_nonempty; exact Ul|exact UO]|split; [exact PO|rewrite El, Er; auto]]).
    pose proof (chain_step _ _ [TPunct "=" a] "=" _ Hl Hr eq_refl (or_introl eq_refl) ltac:(discriminate)) as C.
    split; [|split; [intro Q; inversion Q|split; [|split; [|exact C]]]]; [|apply Hl..]. apply (chain_ok cl); [apply o_assign; assumption|apply Hl|exact C|]. left. toks. rewrite starts_app by (eapply un_nonempty; exact Ul). exact St.
  - intros e O [OO _]. apply cond_oper; [eapply oper_starts; exact O|exact OO].
  - intros a pt q e P U [UO _]. apply cond_let_ok; assumption.
  - intros e O (OO & PO & _). split; [|exact PO]. apply fok_oper; [eapply oper_starts; exact O|exact OO].
  - intros sp e P PO. split; [apply fok_return; [eapply post_starts; exact P|exact PO]|]. intro Q. inversion Q.
  - intros sp. split; [|intro Q; inversion Q]. intros [|n] r N R; [lia|]. destruct r as [|[ | | | ] r]; try reflexivity; destruct R.
  - intros sp. split; [|intro Q; inversion Q]. intros [|n] r N R; [lia|]. destruct r as [|[ | | | ] r]; try reflexivity; destruct R.
  - intros sp e P PO. split; [apply fok_break; [eapply post_starts; exact P|exact PO]|]. intro Q. inversion Q.
  - intros sp. split; [|intro Q; inversion Q]. intros [|n] r N R; [lia|reflexivity].
  - intros a b ts sp C. split; [|intro Q; inversion Q]. intros [|n] r N R; [lia|reflexivity].
  - intros a x s b ts sp C W. split; [|intro Q; inversion Q]. intros [|n] r N R; [lia|].
    toks. cbn [read_expr expr_step]. change (Ascii.eqb "|" "|") with true. cbn iota. unfold closure_step. cbn [take param_tok]. rewrite (word_not x "as") by nk. cbn [negb]. change (Ascii.eqb "|" "|") with true. cbn [negb andb]. rewrite (proj2 (is_word_iff x) W). reflexivity.
  - intros a ps b e Pp P PO Sb. split; [|intro Q; inversion Q]. apply fok_lambda; auto. eapply full_nonempty, un_full_start, post_un_start, post_starts; exact P.
  - split; [simpl; lia|]. intros n [|k] N K; [simpl in K; lia|reflexivity].
  - intros e F [FO _]. pose proof (full_starts _ _ F) as S. pose proof (full_nonempty _ S) as Ne. split.
    + cbn. rewrite app_nil_r. destruct (etoks e); simpl in *; [congruence|lia].
    + intros n [|k] N K; [simpl in K; lia|]. cbn [map punctuated] in *. specialize (FO n []). rewrite app_nil_r in *. specialize (FO N I).
      cbn [read_args]. destruct (etoks e); [congruence|]. rewrite FO. reflexivity.
  - intros e sp es cs F [FO _] A [L AO]. pose proof (full_starts _ _ F) as S. pose proof (full_nonempty _ S) as Ne. split.
    + cbn. rewrite app_length. simpl. lia.
    + intros n [|k] N K; [simpl in K; lia|]. cbn [map punctuated] in *. sizes. simpl in K. cbn [read_args].
      specialize (FO n (TPunct "," sp :: punctuated (map etoks es) cs) ltac:(lia) (or_introl eq_refl)).
      destruct (etoks e) as [|t l]; [congruence|]. cbn [app] in *. rewrite FO. change (Ascii.eqb "," ",") with true. cbn iota. rewrite AO by lia. reflexivity.
  - split; [simpl; lia|]. intros n [|k] N K; [simpl in K; lia|reflexivity].
  - intros pt i gd q g e P G GO F [FO PO]. apply (ok_m_last cl); assumption.
  - intros pt i gd q g e c ms P G GO F [FO PO] A AO. apply (ok_m_comma cl); assumption.
  - intros pt i gd q g e ms P G GO Pe PO Bl A AO. apply (ok_m_blocky cl); auto. apply fok_oper; [eapply post_un_start, post_starts; exact Pe|]. apply un_oper; [eapply full_nonempty, un_full_start, post_un_start, post_starts; exact Pe|].
    apply un_post; [eapply post_starts; exact Pe|exact PO].
  - apply guard_none.
  - intros a e O [OO _]. apply guard_if, OO.
  - split; [simpl; lia|]. intros n [|k] N K; [simpl in K; lia|reflexivity].
  - intros e F [FO PO]. apply (ok_last cl); assumption.
  - intros a pt c e d b P F [FO _] B BO. apply ok_let; assumption.
  - intros. apply ok_local; assumption.
  - intros a pt c e k sp eb d b P Pe PO Sb Eb EO B BO. apply ok_let_else; auto; [eapply post_starts; exact Pe|eapply post_is; exact Pe].
  - intros e sp b F [FO PO] B BO. apply (ok_semi cl); assumption.
  - intros e b P PO Bl B BO. apply (ok_blocky cl); auto; [|eapply block_starts; exact B]. apply fok_oper; [eapply post_un_start, post_starts; exact P|]. apply un_oper; [eapply full_nonempty, un_full_start, post_un_start, post_starts; exact P|].
    apply un_post; [eapply post_starts; exact P|exact PO].
Qed.
(** what is printed is read back *)
Theorem parse_printed cl e : full cl e -> rust_parse (etoks e) = Some e.
Proof.
  intro F. destruct (proj1 (proj2 (proj2 (proj2 (proj2 (trees_ok cl))))) e F) as [FO _]. unfold rust_parse. specialize (FO (S (2 * size (etoks e))) [] ltac:(lia) I).
  rewrite app_nil_r in FO. rewrite FO. reflexivity.
Qed.
(** * Nothing else is accepted *)
Section Sound.
  Variables pe pa : parser.
  Hypothesis Spe : forall ts e r, pe ts = Some (e, r) -> full true e /\ ts = etoks e ++ r.
  Hypothesis Spa : forall ts e r, pa ts = Some (e, r) -> post true e /\ ts = etoks e ++ r /\ (starts_block ts = true -> blocky e = true).

  Lemma sound_args k : forall ts es cs, read_args pe k ts = Some (es, cs) -> args true es cs /\ ts = punctuated (map etoks es) cs.
  Proof.
    induction k as [|k IH]; intros ts es cs H; [discriminate|]. cbn [read_args] in H. destruct ts as [|t ts].
    { injection H as <- <-. split; [constructor|reflexivity]. }
    destruct (pe (t :: ts)) as [[e r]|] eqn:E; [|discriminate]. apply Spe in E. destruct E as [F E]. destruct r as [|[ |c sp| | ] r]; try discriminate.
    - injection H as <- <-. split; [constructor; exact F|]. exact E.
    - destruct (Ascii.eqb_spec c ","); [|discriminate]. subst c. destruct (read_args pe k r) as [[es' cs']|] eqn:R; [|discriminate].
      apply IH in R. destruct R as [A ->]. injection H as <- <-. split; [constructor; assumption|]. exact E.
  Qed.
  Lemma sound_arguments ts es cs : arguments pe ts = Some (es, cs) -> args true es cs /\ ts = punctuated (map etoks es) cs.
  Proof. apply sound_args. Qed.
  Lemma sound_post_aux k : forall ts e e' r, List.length ts < k -> post true e -> read_post pe ts e = Some (e', r) -> post true e' /\ etoks e ++ ts = etoks e' ++ r.
  Proof.
    induction k as [|k IH]; intros ts e e' r K P H; [lia|].
    assert (Stay : Some (e, ts) = Some (e', r) -> post true e' /\ etoks e ++ ts = etoks e' ++ r) by (intro Q; injection Q as <- <-; auto).
    assert (Go : forall e1 pre ts1, ts = pre ++ ts1 -> pre <> [] -> etoks e1 = etoks e ++ pre -> post true e1 -> read_post pe ts1 e1 = Some (e', r) -> post true e' /\ etoks e ++ ts = etoks e' ++ r).
    { intros e1 pre ts1 -> Ne T P1 Q. apply IH in Q; [|rewrite app_length in K; destruct pre; simpl in K; [congruence|lia]|exact P1]. destruct Q as [P' Q]. split; [exact P'|].
      rewrite <- Q, T, <- app_assoc. reflexivity. }
    destruct ts as [|[ |c sp| |[ | | | ] gs sp] ts]; cbn [read_post] in H; try (apply Stay; exact H);
      [|destruct (starts_block (etoks e)) eqn:Sb; [apply Stay; exact H|]; destruct (pe gs) as [[x [|]]|] eqn:X; try discriminate; apply Spe in X; destruct X as [X ->]; rewrite app_nil_r in *;
        apply (Go (EIndex [] e sp x) [TGroup Bracket (etoks x) sp] ts); auto; [discriminate|constructor; assumption]].
    destruct (Ascii.eqb_spec c "?").
    - subst c. apply (Go (ETry [] e sp) [TPunct "?" sp] ts); auto; [discriminate|constructor; exact P].
    - destruct (Ascii.eqb_spec c "."); [|apply Stay; exact H]. subst c. destruct ts as [|[m b|d b|x b| ] ts]; try discriminate;
        [|destruct (Ascii.eqb d "."); [apply Stay; exact H|discriminate]|destruct (numeral x) eqn:Nx; [|discriminate]; apply (Go (EField [] e [TPunct "." sp; TLit x b]) [TPunct "." sp; TLit x b] ts); auto; [discriminate|constructor; assumption]].
      destruct (String.eqb_spec m "await").
      + subst m. apply (Go (EAwait [] e [TPunct "." sp; TIdent "await" b]) [TPunct "." sp; TIdent "await" b] ts); auto; [discriminate|constructor; exact P].
      + destruct (is_word m) eqn:W; [|discriminate]. apply is_word_iff in W.
        assert (F : read_post pe ts (EField [] e [TPunct "." sp; TIdent m b]) = Some (e', r) -> post true e' /\ etoks e ++ TPunct "." sp :: TIdent m b :: ts = etoks e' ++ r).
        { intro Q. apply (Go (EField [] e [TPunct "." sp; TIdent m b]) [TPunct "." sp; TIdent m b] ts); auto; [discriminate|constructor; assumption]. }
        destruct ts as [|[ |d q| |[ | | | ] gs sp2] ts]; try (apply F; exact H).
        { destruct (Ascii.eqb_spec d ":"); [|apply F; exact H]. subst d. destruct ts as [|[ |d2 q2| | ] [|[ |l q3| | ] ts]]; try discriminate.
          destruct (Ascii.eqb_spec d2 ":"); [|discriminate]. destruct (Ascii.eqb_spec l "<"); [|discriminate]. subst d2 l. cbn [andb] in H. apply through_sound in H. destruct H as (g & z & r4 & -> & G & H). cbn [rev app] in H.
          destruct r4 as [|[ | | |[ | | | ] gs sp2] r5]; try discriminate. destruct (arguments pe gs) as [[es cs]|] eqn:A; [|discriminate]. apply sound_arguments in A. destruct A as [A ->].
          apply (Go (EMethodCall [] e (TPunct "." sp :: TIdent m b :: fish q q2 q3 g z) sp2 es cs) (TPunct "." sp :: TIdent m b :: fish q q2 q3 g z ++ [TGroup Parenth (punctuated (map etoks es) cs) sp2]) r5); auto;
            [unfold fish; cbn [app]; rewrite <- !app_assoc; reflexivity|discriminate|apply p_turbo; assumption]. }
        destruct (arguments pe gs) as [[es cs]|] eqn:A; [|discriminate]. apply sound_arguments in A. destruct A as [A ->].
        apply (Go (EMethodCall [] e [TPunct "." sp; TIdent m b] sp2 es cs) [TPunct "." sp; TIdent m b; TGroup Parenth (punctuated (map etoks es) cs) sp2] ts); auto; [discriminate|constructor; assumption].
  Qed.
  Lemma sound_post ts e r : post_step pe pa ts = Some (e, r) -> post true e /\ ts = etoks e ++ r.
  Proof.
    unfold post_step. destruct (pa ts) as [[e0 r0]|] eqn:E; [|discriminate]. apply Spa in E. destruct E as (P & -> & _). intro H.
    apply (sound_post_aux (S (List.length r0))) in H; auto.
  Qed.
  Lemma sound_un ts e r : un_step pe pa ts = Some (e, r) -> un true e /\ ts = etoks e ++ r.
  Proof.
    assert (X : forall ts e r, post_step pe pa ts = Some (e, r) -> un true e /\ ts = etoks e ++ r) by (intros ts0 e0 r0 Q; apply sound_post in Q; destruct Q; split; [constructor|]; assumption).
    intro H. destruct ts as [|[ |c a| | ] ts]; cbn [un_step] in H; try (apply X; exact H).
    destruct (Ascii.eqb_spec c "&").
    - subst c. assert (R : match post_step pe pa ts with Some (e, r) => Some (EReference [] [TPunct "&" a] e, r) | None => None end = Some (e, r) -> un true e /\ TPunct "&" a :: ts = etoks e ++ r).
      { destruct (post_step pe pa ts) as [[e0 r0]|] eqn:E; [|discriminate]. apply sound_post in E. destruct E as [P ->]. intro Q. injection Q as <- <-. split; [apply u_ref; exact P|reflexivity]. }
      destruct ts as [|[m b| | | ] ts]; try (apply R; exact H). destruct (String.eqb_spec m "mut"); [|apply R; exact H]. subst m.
      destruct (post_step pe pa ts) as [[e0 r0]|] eqn:E; [|discriminate]. apply sound_post in E. destruct E as [P ->]. injection H as <- <-. split; [apply u_mut; exact P|reflexivity].
    - destruct (existsb (Ascii.eqb c) prefixes) eqn:C; [|discriminate]. destruct (post_step pe pa ts) as [[e0 r0]|] eqn:E; [|discriminate]. apply sound_post in E. destruct E as [P ->]. injection H as <- <-.
      split; [|reflexivity]. apply u_op; [|exact P]. apply existsb_exists in C. destruct C as (d & D & C). apply Ascii.eqb_eq in C. subst d. exact D.
  Qed.
  Lemma op_amp ts o r : read_op ts = Some (o, r) -> spell o = Some "&" -> no_amp r.
  Proof.
    intros H S. destruct (op_sound _ _ _ H) as (_ & -> & _). destruct o as [|[ |c x| | ] [|[ |d y| | ] o]]; simpl in S; try discriminate.
    - injection S as ->. destruct r as [|[ |d y| | ] r]; try exact I. cbn [no_amp]. intros ->. cbn [read_op app] in H. change (is_op "&&") with true in H. cbn iota in H.
      destruct r as [|[ |g z| | ] r]; try discriminate; destruct (is_op (String "&" (String "&" (String g "")))); discriminate.
    - destruct (spell o); [|discriminate]. simpl in S. discriminate.
  Qed.
  Lemma graft_sound o s u : spell o = Some s -> s = "=" \/ In s infixes -> un true u -> (s = "&" -> is_ref u = false) ->
    forall e, oper true e -> forall e', graft e o u = Some e' -> oper true e' /\ etoks e' = etoks e ++ o ++ etoks u /\ lead e' = lead e /\ (forall k, k < lvl e -> k < level o -> k < lvl e').
  Proof.
    intros Sp O U A. destruct (un_same _ _ U) as (Lu & _ & Tu). pose proof (level_bound o) as Bo.
    assert (H : forall e, oper true e -> left_ok (lvl e) (level o) = true -> forall e', (if starts_block (etoks e) then None else Some (binary e o u)) = Some e' ->
      oper true e' /\ etoks e' = etoks e ++ o ++ etoks u /\ lead e' = lead e /\ (forall k, k < lvl e -> k < level o -> k < lvl e')).
    { intros e Oe Lo e' Q. destruct (starts_block (etoks e)) eqn:SB; [discriminate|]. injection Q as <-. destruct O as [->|O].
      - destruct o as [|[ |c a| | ] [|[ |d b| | ] o]]; simpl in Sp; try discriminate; [|destruct (spell o); simpl in Sp; discriminate]. injection Sp as ->.
        unfold binary. change (Ascii.eqb "=" "=") with true. cbn iota. apply Nat.eqb_eq in Lo.
        split; [apply o_assign; [apply oper_un; assumption|exact SB|constructor; exact U|rewrite Tu; unfold tight; lia]|]. split; [toks; reflexivity|]. split; [reflexivity|]. intros k _ K. exact K.
      - apply or_assoc_range in O. destruct O as [O|O].
        + rewrite (binary_range _ _ _ _ Sp O). split; [apply (o_range true e o s u); auto; [constructor; exact U|rewrite Tu; exact Bo]|]. split; [toks; reflexivity|]. split; [reflexivity|]. intros k _ K. exact K.
        + rewrite (binary_plain _ _ _ _ Sp O). split; [apply (o_binary true e o s u); auto; [constructor; exact U|rewrite Tu; exact Bo|rewrite Lu; exact A]|]. split; [toks; reflexivity|]. split; [reflexivity|]. intros k _ K. exact K. }
    induction 1 as [e Ue|l q t r Ol IH SB Sq Oq Lo Or IHr Lr Aq|l q t r Ol IH SB Sq Oq Lo Or IHr Lr|l a r Ul SB Or IHr Lr]; intros e' G.
    - apply H; [constructor; exact Ue|destruct (un_same _ _ Ue) as (_ & _ & ->); apply left_tight, Bo|]. destruct (un_same _ _ Ue) as (_ & _ & Te). destruct e; cbn [graft] in G; rewrite Te, left_tight in G by exact Bo; exact G.
    - cbn [graft lvl] in G. destruct (left_ok (level q) (level o)) eqn:Lq; [apply H; [econstructor; eassumption|exact Lq|exact G]|]. destruct (Nat.ltb_spec (level q) (level o)) as [Lt|]; [|discriminate].
      destruct (graft r o u) as [r'|] eqn:Gr; [|discriminate]. injection G as <-. destruct (IHr _ eq_refl) as (Or' & Tr & Le & Lk). split; [apply (o_binary true l q t r'); auto; rewrite Le; exact Aq|].
      split; [toks; rewrite Tr, <- !app_assoc; reflexivity|]. split; [reflexivity|]. intros k K _. exact K.
    - cbn [graft lvl] in G. destruct (left_ok (level q) (level o)) eqn:Lq; [apply H; [eapply o_range; eassumption|exact Lq|exact G]|]. destruct (Nat.ltb_spec (level q) (level o)) as [Lt|]; [|discriminate].
      destruct (graft r o u) as [r'|] eqn:Gr; [|discriminate]. injection G as <-. destruct (IHr _ eq_refl) as (Or' & Tr & Le & Lk). split; [apply (o_range true l q t r'); auto|].
      split; [toks; rewrite Tr, <- !app_assoc; reflexivity|]. split; [reflexivity|]. intros k K _. exact K.
    - cbn [graft] in G. change (lvl (EAssign [] l [TPunct "=" a] r)) with 0 in G. destruct (left_ok 0 (level o)) eqn:Lq; [apply H; [apply o_assign; assumption|exact Lq|exact G]|]. destruct (Nat.ltb_spec 0 (level o)) as [Lt|]; [|discriminate].
      destruct (graft r o u) as [r'|] eqn:Gr; [|discriminate]. injection G as <-. destruct (IHr _ eq_refl) as (Or' & Tr & Le & Lk). split; [apply o_assign; auto|].
      split; [toks; rewrite Tr; cbn [app]; rewrite <- !app_assoc; reflexivity|]. split; [reflexivity|]. intros k K _. exact K.
  Qed.
  Lemma sound_more k : forall ts l e r, oper true l -> read_more pe pa k ts l = Some (e, r) -> oper true e /\ etoks l ++ ts = etoks e ++ r.
  Proof.
    induction k as [|k IH]; intros ts l e r Ol H; [discriminate|]. cbn [read_more] in H. destruct (read_op ts) as [[o r1]|] eqn:O; [|injection H as <- <-; auto].
    pose proof (op_amp _ _ _ O) as A. apply op_sound in O. destruct O as ((s & Sp & O) & -> & Ne).
    destruct (un_step pe pa r1) as [[x r2]|] eqn:E; [|discriminate]. apply sound_un in E. destruct E as [X ->]. destruct (graft l o x) as [l'|] eqn:G; [|discriminate].
    assert (Ar : s = "&" -> is_ref x = false).
    { intros ->. specialize (A Sp). destruct x; try reflexivity. exfalso. inversion X as [e' P|a' e' P|a' b e' P|c a' e' C P]; subst; [inversion P| |]; exact (A eq_refl). }
    destruct (graft_sound o s x Sp O X Ar l Ol l' G) as (Ol' & T & _). apply IH in H; [|exact Ol']. destruct H as [Oe H]. split; [exact Oe|]. rewrite <- H, T, <- !app_assoc. reflexivity.
  Qed.
  Lemma sound_oper ts e r : oper_step pe pa ts = Some (e, r) -> oper true e /\ ts = etoks e ++ r.
  Proof.
    unfold oper_step. destruct (un_step pe pa ts) as [[l r0]|] eqn:E; [|discriminate]. apply sound_un in E. destruct E as [U ->].
    assert (G : Some (l, r0) = Some (e, r) -> oper true e /\ etoks l ++ r0 = etoks e ++ r) by (intro Q; injection Q as <- <-; split; [constructor; exact U|reflexivity]).
    rewrite starts_app by (eapply un_nonempty; exact U). destruct (starts_block (etoks l)) eqn:SB; [exact G|]. clear G. apply sound_more. constructor. exact U.
  Qed.
  Lemma sound_cond ts e r : cond_step pe pa ts = Some (e, r) -> cond true e /\ ts = etoks e ++ r.
  Proof.
    assert (X : oper_step pe pa ts = Some (e, r) -> cond true e /\ ts = etoks e ++ r) by (intro Q; apply sound_oper in Q; destruct Q; split; [constructor|]; assumption).
    unfold cond_step. intro H. destruct ts as [|[x a| | | ] ts]; try (apply X; exact H). destruct (String.eqb_spec x "let"); [|apply X; exact H]. subst x. clear X.
    destruct (read_pat ts) as [[pt r0]|] eqn:P; [|discriminate]. destruct r0 as [|[ |c q| | ] r0]; try discriminate. destruct (Ascii.eqb_spec c "="); [|discriminate]. subst c.
    apply pat_sound in P. destruct P as [P ->]. destruct (un_step pe pa r0) as [[x r1]|] eqn:E; [|discriminate]. apply sound_un in E. destruct E as [U ->]. injection H as <- <-.
    split; [apply c_let; assumption|]. toks. rewrite <- ?app_assoc. reflexivity.
  Qed.
  Lemma sound_early ts e r : early pe pa ts = Some (e, r) -> full true e /\ ts = etoks e ++ r.
  Proof.
    unfold early. destruct (starts_block ts); [|apply Spe]. destruct (pa ts) as [[e0 r0]|] eqn:E; [|discriminate]. apply Spa in E. destruct E as (P & -> & _).
    destruct (goes_on r0); intro H.
    - apply (sound_post_aux (S (List.length r0))) in H; auto. destruct H as [P1 H]. split; [apply f_oper, o_un, u_post; exact P1|exact H].
    - injection H as <- <-. split; [apply f_oper, o_un, u_post; exact P|reflexivity].
  Qed.
  Lemma sound_ends rest e r b :
    (forall ts b, rest ts = Some b -> block true b /\ ts = flat_map stoks b) -> full true e ->
    ends rest e r = Some b -> block true b /\ etoks e ++ r = flat_map stoks b.
  Proof.
    intros R F H. assert (G : (if blocky e then option_map (cons (SExpr e None)) (rest r) else None) = Some b -> block true b /\ etoks e ++ r = flat_map stoks b).
    { destruct (blocky e) eqn:Bl; [|discriminate]. destruct (rest r) as [b'|] eqn:E; [|discriminate]. apply R in E. destruct E as [B ->]. intro Q. injection Q as <-.
      split; [apply b_blocky; [eapply blocky_post|exact Bl|exact B]; eassumption|]. toks. rewrite ?app_nil_r. reflexivity. }
    destruct r as [|[ |c sp| | ] r]; cbn [ends] in H; try (apply G; exact H).
    - injection H as <-. split; [constructor; exact F|]. toks. rewrite !app_nil_r. reflexivity.
    - destruct (Ascii.eqb_spec c ";"); [|apply G; exact H]. subst c. destruct (rest r) as [b'|] eqn:E; [|discriminate]. apply R in E. destruct E as [B ->]. injection H as <-.
      split; [constructor; assumption|]. toks. rewrite <- app_assoc. reflexivity.
  Qed.
  Lemma sound_stmts k : forall ts b, read_stmts pe pa k ts = Some b -> block true b /\ ts = flat_map stoks b.
  Proof.
    induction k as [|k IH]; intros ts b H; [discriminate|]. destruct ts as [|t ts].
    { injection H as <-. split; [constructor|reflexivity]. }
    assert (X : expr_stmt_step pe pa (read_stmts pe pa k) (t :: ts) = Some b -> block true b /\ t :: ts = flat_map stoks b).
    { clear H. unfold expr_stmt_step. destruct (early pe pa (t :: ts)) as [[e r]|] eqn:E; [|discriminate]. apply sound_early in E. destruct E as [F ->]. apply sound_ends; auto. }
    cbn [read_stmts] in H. destruct t as [x a| | | ]; try (apply X; exact H). destruct (String.eqb_spec x "let"); [|apply X; exact H]. subst x. clear X.
    unfold let_step in H. destruct (read_pat ts) as [[pt r0]|] eqn:P; [|discriminate]. destruct r0 as [|[ |c q| | ] r0]; try discriminate. apply pat_sound in P. destruct P as [P ->].
    destruct (Ascii.eqb_spec c "="); [|destruct (Ascii.eqb_spec c ";"); [|discriminate]; subst c; destruct (read_stmts pe pa k r0) as [b'|] eqn:E; [|discriminate]; apply IH in E; destruct E as [B ->];
      injection H as <-; split; [apply b_local; assumption|toks; rewrite <- ?app_assoc; reflexivity]]. subst c.
    destruct (pe r0) as [[e r]|] eqn:E; [|discriminate]. apply Spe in E. destruct E as [F ->]. unfold let_ends in H. destruct r as [|[x w|d sp2| | ] r]; try discriminate.
    - destruct (String.eqb_spec x "else"); [|discriminate]. destruct (is_post e) eqn:Ip; [|discriminate]. destruct (starts_block (etoks e)) eqn:Sb; [discriminate|]. destruct (starts_brace r) eqn:Br; [|discriminate].
      cbn [andb negb] in H. subst x. destruct (pa r) as [[el [|[ |d sp2| | ] r']]|] eqn:X; try discriminate. apply Spa in X. destruct X as (X & -> & Bl).
      destruct (Ascii.eqb_spec d ";"); [|discriminate]. subst d. destruct (read_stmts pe pa k r') as [b'|] eqn:E; [|discriminate]. apply IH in E. destruct E as [B ->]. injection H as <-.
      assert (Eb : exists sp eb, el = EBlock [] [] sp eb /\ block true eb).
      { assert (Bl' : blocky el = true) by (apply Bl; destruct (etoks el ++ _) as [|[ | | |[ | | | ]] l]; try discriminate; reflexivity). clear Bl.
        destruct X; try discriminate Bl'; try discriminate Br. eauto. }
      destruct Eb as (sp & eb & -> & Eb). split; [apply b_let_else; auto; apply post_full; assumption|]. toks. repeat (rewrite <- ?app_assoc; cbn [app]). reflexivity.
    - destruct (Ascii.eqb_spec d ";"); [|discriminate]. subst d. destruct (read_stmts pe pa k r) as [b'|] eqn:E; [|discriminate]. apply IH in E. destruct E as [B ->].
      injection H as <-. split; [apply b_let; assumption|]. toks. rewrite <- ?app_assoc. cbn [app]. rewrite <- ?app_assoc. reflexivity.
  Qed.
  Lemma sound_arm_ends rest pt i gd q g e r b :
    (forall ts b, rest ts = Some b -> arms true b /\ ts = flat_map armtoks b) -> pat pt -> guard true i gd -> full true e ->
    arm_ends rest pt i gd q g e r = Some b -> arms true b /\ armt pt i gd q g e r = flat_map armtoks b.
  Proof.
    intros R P Gd F H. assert (G : (if blocky e then option_map (cons (an_arm pt i gd q g e [])) (rest r) else None) = Some b -> arms true b /\ armt pt i gd q g e r = flat_map armtoks b).
    { destruct (blocky e) eqn:Bl; [|discriminate]. destruct (rest r) as [b'|] eqn:E; [|discriminate]. apply R in E. destruct E as [B ->]. intro Q. injection Q as <-.
      split; [apply m_blocky; [exact P|exact Gd|eapply blocky_post|exact Bl|exact B]; eassumption|]. cbn [flat_map]. rewrite armtoks_eq. unfold armt. rewrite ?app_nil_r. repeat (rewrite <- ?app_assoc; cbn [app]). reflexivity. }
    destruct r as [|[ |c sp| | ] r]; cbn [arm_ends] in H; try (apply G; exact H).
    - injection H as <-. split; [constructor; assumption|]. cbn [flat_map]. rewrite armtoks_eq, !app_nil_r. reflexivity.
    - unfold arm_ends in H. destruct (Ascii.eqb_spec c ","); [|apply G; exact H]. subst c. destruct (rest r) as [b'|] eqn:E; [|discriminate]. apply R in E. destruct E as [B ->]. injection H as <-.
      split; [constructor; assumption|]. cbn [flat_map]. rewrite armtoks_eq. unfold armt. repeat (rewrite <- ?app_assoc; cbn [app]). reflexivity.
  Qed.
  Lemma sound_guard ts i gd r : read_guard pe pa ts = Some (i, gd, r) -> guard true i gd /\ ts = i ++ opt_toks etoks gd ++ r.
  Proof.
    assert (N : Some ([], None, ts) = Some (i, gd, r) -> guard true i gd /\ ts = i ++ opt_toks etoks gd ++ r) by (intro Q; injection Q as <- <- <-; split; [constructor|reflexivity]).
    destruct ts as [|[x a| | | ] ts]; try exact N. cbn [read_guard]. destruct (String.eqb_spec x "if"); [|exact N]. subst x. destruct (oper_step pe pa ts) as [[e r0]|] eqn:E; [|discriminate].
    apply sound_oper in E. destruct E as [O ->]. intro H. injection H as <- <- <-. split; [constructor; exact O|reflexivity].
  Qed.
  Lemma sound_arms k : forall ts b, read_arms pe pa k ts = Some b -> arms true b /\ ts = flat_map armtoks b.
  Proof.
    induction k as [|k IH]; intros ts b H; [discriminate|]. destruct ts as [|t ts].
    { injection H as <-. split; [constructor|reflexivity]. }
    cbn [read_arms] in H. destruct (read_pat (t :: ts)) as [[pt r0]|] eqn:P; [|discriminate]. apply pat_sound in P. destruct P as [P ->].
    destruct (read_guard pe pa r0) as [[[i gd] r1]|] eqn:G; [|discriminate]. apply sound_guard in G. destruct G as [G ->].
    unfold arm_step in H. destruct r1 as [|[ |c q| | ] r1]; try discriminate. destruct r1 as [|[ |d g| | ] r1]; try discriminate.
    destruct (arrow c d) eqn:A; [|discriminate]. destruct (arrow_is _ _ A) as [-> ->].
    destruct (early pe pa r1) as [[e r]|] eqn:E; [|discriminate]. apply sound_early in E. destruct E as [F ->]. exact (sound_arm_ends (read_arms pe pa k) pt i gd q g e r b IH P G F H).
  Qed.
  Lemma sound_braces ts b sp r : braces pe pa ts = Some (b, sp, r) -> block true b /\ ts = TGroup Brace (flat_map stoks b) sp :: r.
  Proof.
    destruct ts as [|[ | | |[ | | | ] gs s] ts]; cbn [braces]; try discriminate. destruct (statements pe pa gs) as [b'|] eqn:B; [|discriminate]. apply sound_stmts in B. destruct B as [B ->].
    intro H. injection H as <- <- <-. auto.
  Qed.
  Lemma sound_atom ts e r : atom_step pe pa ts = Some (e, r) -> post true e /\ ts = etoks e ++ r /\ (starts_block ts = true -> blocky e = true).
  Proof.
    intro H. assert (Bl : forall e' r', Some (e', r') = Some (e, r) -> post true e' -> blocky e' = true -> ts = etoks e' ++ r' -> post true e /\ ts = etoks e ++ r /\ (starts_block ts = true -> blocky e = true)).
    { intros e' r' Q P B T. injection Q as -> ->. auto. }
    destruct ts as [|[x a| |l sp|[ | | | ] gs sp] ts]; cbn [atom_step] in H; try discriminate.
    - destruct (String.eqb_spec x "if").
      { subst x. unfold if_step in H. destruct (cond_step pe pa ts) as [[c [|[ | | |[ | | | ] b sp] r']]|] eqn:E; try discriminate. apply sound_cond in E. destruct E as [C ->].
        destruct (statements pe pa b) as [b'|] eqn:B; [|discriminate]. apply sound_stmts in B. destruct B as [B ->]. unfold else_step in H.
        assert (N := fun H => Bl (EIf [] [TIdent "if" a] c sp b' [] None) r' H (p_if true a c sp b' C B) eq_refl ltac:(toks; rewrite <- ?app_assoc; reflexivity)).
        destruct r' as [|[y d| | | ] r']; try (apply N; exact H). destruct (String.eqb_spec y "else"); [|apply N; exact H]. subst y. clear N.
        destruct (starts_block r') eqn:SB; [|discriminate]. destruct (pa r') as [[el r2]|] eqn:E; [|discriminate]. apply Spa in E. destruct E as (P & -> & Be).
        eapply Bl; [exact H| |reflexivity|]; [apply p_else; auto|]. toks. rewrite <- ?app_assoc. reflexivity. }
      destruct (String.eqb_spec x "match").
      { subst x. unfold match_step in H. destruct (oper_step pe pa ts) as [[c [|[ | | |[ | | | ] b sp] r']]|] eqn:E; try discriminate. apply sound_oper in E. destruct E as [C ->].
        unfold match_arms in H. destruct (read_arms pe pa _ b) as [b'|] eqn:B; [|discriminate]. apply sound_arms in B. destruct B as [B ->].
        eapply Bl; [exact H| |reflexivity|]; [apply p_match; auto|]. toks. rewrite <- ?app_assoc. reflexivity. }
      destruct (String.eqb_spec x "while").
      { subst x. unfold while_step in H. destruct (cond_step pe pa ts) as [[c [|[ | | |[ | | | ] b sp] r']]|] eqn:E; try discriminate. apply sound_cond in E. destruct E as [C ->].
        destruct (statements pe pa b) as [b'|] eqn:B; [|discriminate]. apply sound_stmts in B. destruct B as [B ->].
        eapply Bl; [exact H| |reflexivity|]; [apply p_while; auto|]. toks. rewrite <- ?app_assoc. reflexivity. }
      destruct (String.eqb_spec x "for").
      { subst x. unfold for_step in H. destruct (read_pat ts) as [[pt r0]|] eqn:P; [|discriminate]. destruct r0 as [|[i q| | | ] r0]; try discriminate. destruct (String.eqb_spec i "in"); [|discriminate]. subst i.
        apply pat_sound in P. destruct P as [P ->]. destruct (oper_step pe pa r0) as [[c [|[ | | |[ | | | ] b sp] r']]|] eqn:E; try discriminate. apply sound_oper in E. destruct E as [C ->].
        destruct (statements pe pa b) as [b'|] eqn:B; [|discriminate]. apply sound_stmts in B. destruct B as [B ->].
        eapply Bl; [exact H| |reflexivity|]; [apply p_for; auto|]. toks. rewrite <- ?app_assoc. cbn [app]. rewrite <- ?app_assoc. reflexivity. }
      destruct (String.eqb_spec x "loop").
      { subst x. destruct (braces pe pa ts) as [[[b sp] r']|] eqn:B; [|discriminate]. apply sound_braces in B. destruct B as [B ->].
        eapply Bl; [exact H| |reflexivity|]; [apply p_loop; auto|]. reflexivity. }
      destruct (String.eqb_spec x "unsafe").
      { subst x. destruct (braces pe pa ts) as [[[b sp] r']|] eqn:B; [|discriminate]. apply sound_braces in B. destruct B as [B ->].
        eapply Bl; [exact H| |reflexivity|]; [apply p_unsafe; auto|]. reflexivity. }
      assert (SB : forall ts, starts_block (TIdent x a :: ts) = false).
      { intro t. cbn [starts_block existsb block_words]. repeat match goal with N : x <> ?k |- context [String.eqb x ?k] => rewrite (proj2 (String.eqb_neq x k) N) end. reflexivity. }
      destruct (is_word x || existsb (String.eqb x) path_words) eqn:F; [|discriminate]. apply first_iff in F.
      destruct (read_hops ts) as [hs r0] eqn:Hr. apply hops_sound in Hr. destruct Hr as [Hh Ts].
      assert (Fr : post true (far x a hs) -> Some (far x a hs, r0) = Some (e, r) -> post true e /\ TIdent x a :: ts = etoks e ++ r /\ (starts_block (TIdent x a :: ts) = true -> blocky e = true)).
      { intros W Q. injection Q as <- <-. split; [exact W|]. split; [rewrite Ts, far_toks; reflexivity|]. rewrite SB. discriminate. }
      destruct hs as [|h hs].
      + cbn [flat_map app] in Ts. subst r0. destruct (is_word x) eqn:W.
        * apply is_word_iff in W. destruct ts as [|[ | | |[ | | | ] gs sp] ts]; try (apply Fr; [apply p_name; left; exact W|exact H]). destruct (arguments pe gs) as [[es cs]|] eqn:A; [|discriminate]. apply sound_arguments in A. destruct A as [A ->].
          injection H as <- <-. split; [apply p_call; assumption|]. split; [reflexivity|]. rewrite SB. discriminate.
        * destruct (String.eqb_spec x "self"); [|discriminate]. apply Fr; [apply p_name; right; assumption|exact H].
      + destruct r0 as [|[ | | |[ | | | ] gs sp] r0]; try (apply Fr; [apply p_far; assumption|exact H]). destruct (arguments pe gs) as [[es cs]|] eqn:A; [|discriminate]. apply sound_arguments in A. destruct A as [A ->].
        injection H as <- <-. split; [apply p_call_far; assumption|]. split; [rewrite Ts; cbn [etoks]; rewrite far_toks; rewrite outer_nil; cbn [flat_map app]; repeat (rewrite <- !app_assoc; cbn [app]); reflexivity|]. rewrite SB. discriminate.
    - injection H as <- <-. split; [constructor|]. split; [reflexivity|discriminate].
    - destruct (arguments pe gs) as [[es cs]|] eqn:A; [|discriminate]. apply sound_arguments in A. destruct A as [A ->]. injection H as <- <-. split; [|split; [|discriminate]].
      + inversion A; subst; cbn [paren]; [apply p_unit|apply p_paren; assumption|]. unfold paren. destruct es0; apply p_tuple; try discriminate; exact A.
      + inversion A; subst; cbn [paren]; [reflexivity| |].
        * toks. cbn [map punctuated]. rewrite app_nil_r. reflexivity.
        * destruct es0; reflexivity.
    - destruct (statements pe pa gs) as [b'|] eqn:B; [|discriminate]. apply sound_stmts in B. destruct B as [B ->]. injection H as <- <-.
      split; [constructor; exact B|]. split; reflexivity.
    - destruct (arguments pe gs) as [[es cs]|] eqn:A; [|discriminate]. apply sound_arguments in A. destruct A as [A ->]. injection H as <- <-. split; [apply p_array; exact A|]. split; [reflexivity|discriminate].
  Qed.
  Lemma sound_expr ts e r : expr_step pe pa ts = Some (e, r) -> full true e /\ ts = etoks e ++ r.
  Proof.
    intro H. assert (X : oper_step pe pa ts = Some (e, r) -> full true e /\ ts = etoks e ++ r).
    { intro Q. apply sound_oper in Q. destruct Q. split; [constructor|]; assumption. }
    destruct ts as [|[x a|c a| | ] ts]; cbn [expr_step] in H; try (apply X; exact H).
    - assert (Y : forall mk, return_step pe pa mk ts = Some (e, r) -> (e = mk None /\ ts = r) \/ (exists e0, e = mk (Some e0) /\ post true e0 /\ ts = etoks e0 ++ r)).
      { intros mk. unfold return_step. assert (Y : match post_step pe pa ts with Some (e, r) => Some (mk (Some e), r) | None => None end = Some (e, r) -> (e = mk None /\ ts = r) \/ (exists e0, e = mk (Some e0) /\ post true e0 /\ ts = etoks e0 ++ r)).
        { destruct (post_step pe pa ts) as [[e0 r0]|] eqn:E; [|discriminate]. apply sound_post in E. destruct E as [P ->]. intro Q. injection Q as <- <-. right. eauto. }
        destruct ts as [|[ | | | ] ts]; try exact Y; intro Q; injection Q as <- <-; left; split; reflexivity. }
      destruct (String.eqb_spec x "return").
      { subst x. destruct (Y _ H) as [[-> ->]|(e0 & -> & P & ->)]; [split; [apply f_return_none|reflexivity]|split; [apply f_return; exact P|reflexivity]]. }
      destruct (String.eqb_spec x "break").
      { subst x. destruct (Y _ H) as [[-> ->]|(e0 & -> & P & ->)]; [split; [apply f_break|reflexivity]|split; [apply f_break_some; exact P|reflexivity]]. }
      destruct (String.eqb_spec x "continue"); [subst x; injection H as <- <-; split; [apply f_continue|reflexivity]|]. apply X; exact H.
    - destruct (Ascii.eqb_spec c "|"); [|apply X; exact H]. subst c. clear X. unfold closure_step in H. destruct (take param_tok ts) as [ps r0] eqn:T. apply take_sound in T. destruct T as [T ->].
      destruct r0 as [|[ |d b| | ] r0]; try discriminate.
      assert (Y : (if Ascii.eqb d "|" && negb (starts_block r0) then match post_step pe pa r0 with Some (e, r) => Some (EClosure [] (TPunct "|" a :: ps ++ [TPunct d b]) RetNone e, r) | None => None end else None) = Some (e, r) ->
        full true e /\ TPunct "|" a :: ps ++ TPunct d b :: r0 = etoks e ++ r).
      { destruct (Ascii.eqb_spec d "|"); [|discriminate]. subst d. destruct (starts_block r0) eqn:Sb; [discriminate|]. cbn [andb negb]. destruct (post_step pe pa r0) as [[e0 r1]|] eqn:E; [|discriminate].
        apply sound_post in E. destruct E as [P ->]. intro Q. injection Q as <- <-. rewrite starts_app in Sb by (eapply un_nonempty, u_post, P). split; [apply f_lambda; auto|]. toks. repeat (rewrite <- ?app_assoc; cbn [app]). reflexivity. }
      destruct r0 as [|[ | | |[ | | | ] gs sp] r0]; try (apply Y; exact H). clear Y.
      destruct (Ascii.eqb_spec d "|"); [|discriminate]. subst d. cbn [andb] in H. destruct ps as [|[x s| | | ] [|]]; try discriminate.
      + injection H as <- <-. split; [apply f_closure; reflexivity|reflexivity].
      + destruct (is_word x) eqn:W; [|discriminate]. apply is_word_iff in W. injection H as <- <-. split; [apply f_closure_1; auto|reflexivity].
  Qed.
End Sound.
Lemma sound_n n :
  (forall ts e r, read_expr n ts = Some (e, r) -> full true e /\ ts = etoks e ++ r) /\
  (forall ts e r, read_atom n ts = Some (e, r) -> post true e /\ ts = etoks e ++ r /\ (starts_block ts = true -> blocky e = true)).
Proof.
  induction n as [|n [E A]]; [split; discriminate|]. split; intros ts e r H.
  - exact (sound_expr _ _ E A ts e r H).
  - exact (sound_atom _ _ E A ts e r H).
Qed.
(** the parser accepts the printed trees and nothing else *)
Theorem parse_iff ts e : rust_parse ts = Some e <-> full true e /\ etoks e = ts.
Proof.
  split.
  - unfold rust_parse. destruct (read_expr _ ts) as [[e0 [|]]|] eqn:E; try discriminate. intro Q. injection Q as ->.
    apply (proj1 (sound_n _)) in E. rewrite app_nil_r in E. destruct E; split; auto.
  - intros [F <-]. apply (parse_printed true). exact F.
Qed.
