(** Proofs about the layout of pretty printed source (C32).  *)
From Coq Require Import String Ascii Bool Arith NArith Lia List.
From Verif Require Import Base Tokens Excerpt ExcerptSpec ExcerptProofs.
Import ListNotations.
Open Scope string_scope.
Open Scope list_scope.

(** The calls of [add_tt] made for a tree; [en_vis] is false for the delimiters of invisible groups. *)
Record entry : Type := mk_entry { en_vis : bool; en_text : text; en_line : nat; en_col : nat; en_ecol : nat }.
Definition vis_delim (d : delim) : bool := match d with NoDelim => false | _ => true end.
Fixpoint entries (t : ptt) : list entry :=
  match t with
  | PLeaf x l c e | PStr _ x l c e => [mk_entry true x l c e]
  | PGroup d ol oc kids cl ce =>
      mk_entry (vis_delim d) (delim_start d) ol oc (oc + 1) :: flat_map entries kids
      ++ [mk_entry (vis_delim d) (delim_end d) cl (ce - 1) ce]
  end.
Fixpoint emit (es : list entry) (cur : cursor) (top : bool) : text * cursor :=
  match es with
  | [] => ([], cur)
  | e :: r => let '(a, cur') := add_tt (en_text e) (en_line e) (en_col e) (en_ecol e) cur top in
              let '(b, cur'') := emit r cur' false in (a ++ b, cur'')
  end.

Lemma emit_cons e r cur top :
  emit (e :: r) cur top =
  let x := add_tt (en_text e) (en_line e) (en_col e) (en_ecol e) cur top in
  let y := emit r (snd x) false in (fst x ++ fst y, snd y).
Proof. cbn [emit]. destruct (add_tt _ _ _ _ cur top) as [s1 c1]. cbn [fst snd]. destruct (emit r c1 false). reflexivity. Qed.

Lemma emit_app_false a b : forall cur,
  emit (a ++ b) cur false = let '(x, cur') := emit a cur false in let '(y, cur'') := emit b cur' false in (x ++ y, cur'').
Proof.
  induction a as [|e a IH]; intros cur.
  - simpl. destruct (emit b cur false). reflexivity.
  - simpl app. rewrite !emit_cons. cbn zeta. rewrite IH.
    destruct (add_tt _ _ _ _ cur false) as [s1 c1]. cbn [fst snd].
    destruct (emit a c1 false) as [s2 c2]. cbn [fst snd]. destruct (emit b c2 false) as [s3 c3]. cbn [fst snd].
    rewrite app_assoc. reflexivity.
Qed.

Lemma emit_app a b cur top : a <> [] ->
  emit (a ++ b) cur top = let '(x, cur') := emit a cur top in let '(y, cur'') := emit b cur' false in (x ++ y, cur'').
Proof.
  intros Ha. destruct a as [|e a]; [congruence|].
  simpl app. rewrite !emit_cons. cbn zeta. rewrite emit_app_false.
  destruct (add_tt _ _ _ _ cur top) as [s1 c1]. cbn [fst snd].
  destruct (emit a c1 false) as [s2 c2]. cbn [fst snd]. destruct (emit b c2 false) as [s3 c3]. cbn [fst snd].
  rewrite app_assoc. reflexivity.
Qed.

Lemma entries_nonempty t : entries t <> [].
Proof. destruct t; discriminate. Qed.

Lemma pretty_emit t : forall cur top, pretty_tt t cur top = emit (entries t) cur top.
Proof.
  induction t as [x l c e|v x l c e|d ol oc kids cl ce IH] using ptt_ind'; intros cur top.
  - simpl. rewrite app_nil_r. reflexivity.
  - simpl. rewrite app_nil_r. reflexivity.
  - cbn [pretty_tt entries].
    change (mk_entry (vis_delim d) (delim_start d) ol oc (oc + 1) :: flat_map entries kids ++ [mk_entry (vis_delim d) (delim_end d) cl (ce - 1) ce])
      with ([mk_entry (vis_delim d) (delim_start d) ol oc (oc + 1)] ++ (flat_map entries kids ++ [mk_entry (vis_delim d) (delim_end d) cl (ce - 1) ce])).
    rewrite emit_app by discriminate. cbn [emit en_text en_line en_col en_ecol].
    destruct (add_tt (delim_start d) ol oc (oc + 1) cur top) as [s1 cur1]. rewrite app_nil_r.
    rewrite emit_app_false. cbn [emit en_text en_line en_col en_ecol].
    assert (Hk : forall cur, (fix go (l : list ptt) (cur : cursor) : text * cursor :=
                            match l with
                            | [] => ([], cur)
                            | t :: l' => let '(a, cur') := pretty_tt t cur false in
                                         let '(b, cur'') := go l' cur' in (a ++ b, cur'')
                            end) kids cur = emit (flat_map entries kids) cur false).
    { clear -IH. induction IH as [|k r Hk _ IHr]; intros cur; [reflexivity|].
      cbn [flat_map]. rewrite emit_app_false, Hk. destruct (emit (entries k) cur false) as [a cur'].
      rewrite IHr. reflexivity. }
    rewrite Hk. destruct (emit (flat_map entries kids) cur1 false) as [s2 cur2].
    destruct (add_tt (delim_end d) cl (ce - 1) ce cur2 false) as [s3 cur3]. rewrite app_nil_r. reflexivity.
Qed.

Lemma pretty_rest_emit l : forall cur, pretty_rest l cur = emit (flat_map entries l) cur false.
Proof.
  induction l as [|t l IH]; intros cur; [reflexivity|]. cbn [pretty_rest flat_map].
  rewrite emit_app_false, pretty_emit. destruct (emit (entries t) cur false). rewrite IH. reflexivity.
Qed.

Lemma pretty_inner_emit l : pretty_inner l = fst (emit (flat_map entries l) (None, None) true).
Proof.
  destruct l as [|t l]; [reflexivity|]. cbn [pretty_inner flat_map]. rewrite emit_app by apply entries_nonempty.
  rewrite pretty_emit. destruct (emit (entries t) (None, None) true) as [a cur]. rewrite pretty_rest_emit.
  destruct (emit (flat_map entries l) cur false). reflexivity.
Qed.

(** ** Well laid entries *)
Definition en_placed (e : entry) : placed := mk_placed (en_text e) (en_line e) (en_col e).
Definition vis (es : list entry) : list placed := map en_placed (filter en_vis es).

Lemma vis_app a b : vis (a ++ b) = vis a ++ vis b.
Proof. unfold vis. rewrite filter_app, map_app. reflexivity. Qed.
Lemma vis_written t : vis (entries t) = written t.
Proof.
  induction t as [x l c e|v x l c e|d ol oc kids cl ce IH] using ptt_ind'; try reflexivity.
  assert (Hk : vis (flat_map entries kids) = flat_map written kids).
  { induction IH as [|k r Hk _ IHr]; [reflexivity|]. simpl. rewrite vis_app, Hk, IHr. reflexivity. }
  change (entries (PGroup d ol oc kids cl ce)) with
    ([mk_entry (vis_delim d) (delim_start d) ol oc (oc + 1)] ++ (flat_map entries kids ++ [mk_entry (vis_delim d) (delim_end d) cl (ce - 1) ce])).
  rewrite !vis_app, Hk. destruct d; try reflexivity. simpl. apply app_nil_r.
Qed.
Lemma vis_written_all l : vis (flat_map entries l) = written_all l.
Proof. induction l as [|t l IH]; [reflexivity|]. simpl. rewrite vis_app, vis_written, IH. reflexivity. Qed.

(** position [(l, c)] may follow state [(L, C)]; when [pend], the next token must be exactly there *)
Definition may_follow (L C : nat) (pend : bool) (l c : nat) : Prop :=
  if pend then l = L /\ c = C else L < l \/ (L = l /\ C <= c).
Inductive laid : nat -> nat -> bool -> list entry -> Prop :=
| laid_nil : forall L C, laid L C false []
| laid_vis : forall L C pend x l c r,
    may_follow L C pend l c -> 1 <= c -> no_nl x -> laid l (c + length x) false r ->
    laid L C pend (mk_entry true x l c (c + length x) :: r)
| laid_open : forall L C pend l c r,
    may_follow L C pend l c -> 1 <= c -> laid l c true r -> laid L C pend (mk_entry false [] l c (c + 1) :: r)
| laid_close : forall L C r, laid L C false r -> laid L C false (mk_entry false [] L (C - 1) C :: r).

Definition end_of (p : placed) : nat * nat := (pl_line p, pl_col p + length (pl_text p)).

Lemma in_order_app a b : in_order (a ++ b) -> in_order a /\ in_order b.
Proof.
  induction a as [|x a IH]; simpl; [tauto|]. intros [H1 H2]. destruct (IH H2) as [H3 H4]. split; [|exact H4].
  split; [|exact H3]. destruct a; [exact I|exact H1].
Qed.
Lemma in_order_join a x y b : in_order (a ++ [x] ++ y :: b) -> after x y.
Proof. intros H. apply in_order_app in H. destruct H as [_ H]. simpl in H. tauto. Qed.

Lemma after_follow x y : after x y -> may_follow (fst (end_of x)) (snd (end_of x)) false (pl_line y) (pl_col y).
Proof. unfold after, may_follow, end_of. simpl. tauto. Qed.

(** a list of trees whose written tokens are in order is well laid *)
Definition laid_goal (w : list placed) (es : list entry) : Prop :=
  forall L C pend r,
    match w with [] => True | p :: _ => may_follow L C pend (pl_line p) (pl_col p) end ->
    in_order w ->
    match rev w with [] => laid L C pend r | p :: _ => laid (fst (end_of p)) (snd (end_of p)) false r end ->
    laid L C pend (es ++ r).

Lemma laid_goal_app w1 es1 w2 es2 :
  laid_goal w1 es1 -> laid_goal w2 es2 -> laid_goal (w1 ++ w2) (es1 ++ es2).
Proof.
  intros H1 H2 L C pend r Hf Ho Hr. rewrite <- app_assoc. apply H1.
  - destruct w1; [exact I|exact Hf].
  - apply in_order_app in Ho. tauto.
  - destruct (rev w1) as [|p w1'] eqn:E1.
    + assert (w1 = []) by (rewrite <- (rev_involutive w1), E1; reflexivity). subst w1. simpl in *.
      apply H2; [exact Hf|exact Ho|exact Hr].
    + assert (Hw1 : w1 = rev w1' ++ [p]) by (rewrite <- (rev_involutive w1), E1; reflexivity). subst w1.
      apply H2.
      * destruct w2 as [|q w2]; [exact I|]. apply after_follow. rewrite <- app_assoc in Ho. exact (in_order_join _ _ _ _ Ho).
      * apply in_order_app in Ho. tauto.
      * rewrite rev_app_distr in Hr. destruct (rev w2) as [|q w2'] eqn:E2.
        -- rewrite E1 in Hr. exact Hr.
        -- exact Hr.
Qed.

Lemma laid_goal_vis x l c : 1 <= c -> no_nl x -> laid_goal [mk_placed x l c] [mk_entry true x l c (c + length x)].
Proof. intros Hc Hx L C pend r Hf _ Hr. simpl in *. apply laid_vis; assumption. Qed.

Lemma written_nonempty t : sized t -> written t <> [].
Proof.
  destruct t as [x l c e|v x l c e|d ol oc kids cl ce]; try discriminate. simpl. intros [_ H].
  destruct d; try discriminate. destruct H as (f & la & fr & ba & H & _). rewrite H. discriminate.
Qed.

Lemma sized_laid t : sized t -> laid_goal (written t) (entries t).
Proof.
  induction t as [x l c e|v x l c e|d ol oc kids cl ce IH] using ptt_ind'.
  - intros (H1 & -> & H3). apply laid_goal_vis; assumption.
  - intros (H1 & -> & H3). apply laid_goal_vis; assumption.
  - cbn [sized]. intros [Hk Hd].
    assert (Hkids : laid_goal (flat_map written kids) (flat_map entries kids)).
    { clear Hd. induction IH as [|k r Hk1 _ IHr]; simpl.
      - intros L C pend r0 _ _ Hr. exact Hr.
      - simpl in Hk. apply laid_goal_app; [apply Hk1; tauto|apply IHr; tauto]. }
    destruct d; cbn [written entries vis_delim delim_start delim_end].
    + destruct Hd as [H1 H2]. change (mk_placed (chars "(") ol oc :: ?a) with ([mk_placed (chars "(") ol oc] ++ a).
      apply (laid_goal_app [_] [_]); [apply (laid_goal_vis (chars "(")); [exact H1|intros [H|[]]; discriminate]|].
      apply laid_goal_app; [exact Hkids|]. replace ce with (ce - 1 + length (chars ")")) at 3 by (simpl; lia).
      apply laid_goal_vis; [lia|intros [H|[]]; discriminate].
    + destruct Hd as [H1 H2].
      apply (laid_goal_app [_] [_]); [apply (laid_goal_vis (chars "{")); [exact H1|intros [H|[]]; discriminate]|].
      apply laid_goal_app; [exact Hkids|]. replace ce with (ce - 1 + length (chars "}")) at 3 by (simpl; lia).
      apply laid_goal_vis; [lia|intros [H|[]]; discriminate].
    + destruct Hd as [H1 H2].
      apply (laid_goal_app [_] [_]); [apply (laid_goal_vis (chars "[")); [exact H1|intros [H|[]]; discriminate]|].
      apply laid_goal_app; [exact Hkids|]. replace ce with (ce - 1 + length (chars "]")) at 3 by (simpl; lia).
      apply laid_goal_vis; [lia|intros [H|[]]; discriminate].
    + destruct Hd as (first & last & front & back & Hw1 & Hw2 & -> & -> & -> & ->).
      intros L C pend r Hf Ho Hr. rewrite Hw1 in Hf.
      assert (Hlast : rev (flat_map written kids) = last :: rev front) by (rewrite Hw2, rev_app_distr; reflexivity).
      rewrite Hlast in Hr. simpl app. rewrite <- app_assoc.
      assert (1 <= pl_col first).
      { clear -Hk Hw1 IH. destruct kids as [|k kids]; [discriminate|]. simpl in Hk. destruct Hk as [Hk _].
        assert (G : forall t, sized t -> forall p q, written t = p :: q -> 1 <= pl_col p).
        { clear. intros t. induction t as [x l c e|v x l c e|d ol oc kids cl ce IH] using ptt_ind'; intros Hs p q E.
          - simpl in E. injection E as <- <-. simpl in *. tauto.
          - simpl in E. injection E as <- <-. simpl in *. tauto.
          - cbn [sized] in Hs. destruct Hs as [Hk Hd]. destruct d; cbn [written] in E; try (injection E as <- <-; simpl; tauto).
            destruct IH as [|k kids IHk IHr]; [discriminate|]. simpl in Hk, E.
            destruct (written k) as [|p0 q0] eqn:E0.
            + exfalso. apply (written_nonempty k); tauto.
            + simpl in E. injection E as <- <-. eapply IHk; [tauto|reflexivity]. }
        simpl in Hw1. destruct (written k) as [|p0 q0] eqn:E0.
        - exfalso. apply (written_nonempty k); tauto.
        - simpl in Hw1. injection Hw1 as <- <-. eapply G; [exact Hk|exact E0]. }
      apply laid_open; [exact Hf|assumption|].
      apply Hkids.
      * rewrite Hw1. split; reflexivity.
      * exact Ho.
      * rewrite Hlast. simpl app. apply laid_close. exact Hr.
Qed.

Lemma sized_laid_all l : Forall sized l -> laid_goal (written_all l) (flat_map entries l).
Proof.
  intros H. induction H as [|t l Ht _ IH]; simpl.
  - intros L C pend r _ _ Hr. exact Hr.
  - apply laid_goal_app; [apply sized_laid; exact Ht|exact IH].
Qed.

(** ** Where the output is *)
Lemma end_pos_app a b l c : end_pos (a ++ b) l c = end_pos b (fst (end_pos a l c)) (snd (end_pos a l c)).
Proof. revert l c. induction a as [|x a IH]; intros l c; [reflexivity|]. simpl. destruct (N.eqb x nl); apply IH. Qed.
Lemma end_pos_line x l c : no_nl x -> end_pos x l c = (l, c + length x).
Proof.
  revert c. induction x as [|k x IH]; intros c H; simpl; [f_equal; lia|].
  destruct (N.eqb_spec k nl) as [->|]; [exfalso; apply H; now left|].
  rewrite IH; [f_equal; lia|]. intros Hin; apply H; now right.
Qed.
Lemma end_pos_sps k l c : end_pos (repeat sp k) l c = (l, c + k).
Proof. rewrite end_pos_line; [rewrite repeat_length; reflexivity|]. intros H. apply repeat_spec in H. discriminate. Qed.
Lemma end_pos_nls k l c : end_pos (repeat nl k) l c = (l + k, if Nat.eqb k 0 then c else 0).
Proof.
  revert l c. induction k as [|k IH]; intros l c; simpl; [f_equal; lia|].
  rewrite IH. f_equal; [lia|]. destruct (Nat.eqb k 0); reflexivity.
Qed.

Section Out.
  Variables L0 C0 : nat.
  (** where source position [(l, c)] is in the output *)
  Definition out_pos (l c : nat) : nat * nat := (l - L0, if Nat.eqb l L0 then 4 + (c - C0) else c - 1).
  Definition ok_pos (l c : nat) : Prop := L0 <= l /\ (l = L0 -> C0 <= c) /\ 1 <= c.
  Definition rec_col (C : nat) (pend : bool) : nat := if pend then C + 1 else C.

  Definition gap (L C : nat) (pend : bool) (l c : nat) : text :=
    if (L <? l)%nat then repeat nl (l - L) ++ repeat sp (c - 1)
    else if (rec_col C pend <? c)%nat then repeat sp (c - rec_col C pend) else [].

  Lemma gap_pos L C pend l c : ok_pos L C -> may_follow L C pend l c -> 1 <= c ->
    end_pos (gap L C pend l c) (fst (out_pos L C)) (snd (out_pos L C)) = out_pos l c /\ ok_pos l c /\ blank (gap L C pend l c).
  Proof.
    intros (H1 & H2 & H3) Hf Hc. unfold gap, out_pos, ok_pos, may_follow, rec_col in *. simpl fst; simpl snd.
    destruct (Nat.ltb_spec L l) as [Hl|Hl].
    - split; [|split].
      + rewrite end_pos_app, end_pos_nls. simpl fst; simpl snd. rewrite end_pos_sps.
        destruct (Nat.eqb_spec (l - L) 0); [lia|]. destruct (Nat.eqb_spec l L0); [lia|]. f_equal; lia.
      + lia.
      + intros k Hk. apply in_app_or in Hk. destruct Hk as [Hk|Hk]; apply repeat_spec in Hk; auto.
    - destruct pend.
      + destruct Hf as [-> ->]. destruct (Nat.ltb_spec (C + 1) C); [lia|]. simpl. repeat split; try lia. intros k [].
      + destruct Hf as [Hf|[-> Hf]]; [lia|].
        destruct (Nat.ltb_spec C c).
        * split; [|split].
          -- rewrite end_pos_sps. f_equal. destruct (Nat.eqb_spec l L0); lia.
          -- lia.
          -- intros k Hk. apply repeat_spec in Hk; auto.
        * assert (C = c) by lia. subst c. simpl. repeat split; try lia. intros k [].
  Qed.

  Lemma add_tt_gap x L C pend l c e :
    add_tt x l c e (Some L, Some (rec_col C pend)) false = (gap L C pend l c ++ x, (Some l, Some e)).
  Proof. unfold add_tt, gap. cbn [fst snd]. destruct (Nat.ltb_spec L l); reflexivity. Qed.

  Lemma blank_app a b : blank a -> blank b -> blank (a ++ b).
  Proof. intros Ha Hb k Hk. apply in_app_or in Hk. destruct Hk; auto. Qed.
  Lemma spaced_blank g ws s : blank g -> spaced ws s -> spaced ws (g ++ s).
  Proof.
    intros Hg [g' Hg'|g' t r s' Hg' Hr].
    - apply spaced_nil. apply blank_app; assumption.
    - rewrite (app_assoc g g'). apply spaced_cons; [apply blank_app; assumption|exact Hr].
  Qed.
  Lemma spaced_nilnil : spaced [] [].
  Proof. apply spaced_nil. intros k []. Qed.

  Lemma emit_spaced es : forall L C pend, ok_pos L C -> laid L C pend es ->
    spaced (map pl_text (vis es)) (fst (emit es (Some L, Some (rec_col C pend)) false)).
  Proof.
    induction es as [|e es IH]; intros L C pend Hok H.
    - apply spaced_nilnil.
    - inversion H as [|? ? ? x l c r Hf Hc Hx Hr|? ? ? l c r Hf Hc Hr|? ? r Hr]; subst; cbn [emit en_text en_line en_col en_ecol].
      + rewrite add_tt_gap. destruct (gap_pos L C pend l c Hok Hf Hc) as (_ & Hok' & Hb).
        assert (Hok2 : ok_pos l (c + length x)) by (unfold ok_pos in *; lia).
        specialize (IH l (c + length x) false Hok2 Hr). cbn [rec_col] in IH.
        destruct (emit es (Some l, Some (c + length x)) false) as [b cur]. simpl fst in *.
        unfold vis in *. cbn [filter en_vis map en_placed en_text pl_text]. rewrite <- app_assoc. apply spaced_cons; assumption.
      + rewrite add_tt_gap. destruct (gap_pos L C pend l c Hok Hf Hc) as (_ & Hok' & Hb).
        specialize (IH l c true Hok' Hr). cbn [rec_col] in IH.
        destruct (emit es (Some l, Some (c + 1)) false) as [b cur]. simpl fst in *. rewrite app_nil_r.
        unfold vis in *. cbn [filter en_vis]. apply spaced_blank; assumption.
      + rewrite add_tt_gap. unfold gap, rec_col. rewrite Nat.ltb_irrefl.
        destruct (Nat.ltb_spec C (C - 1)); [lia|]. specialize (IH L C false Hok Hr). cbn [rec_col] in IH.
        destruct (emit es (Some L, Some C) false) as [b cur]. exact IH.
  Qed.

  Lemma emit_place es : forall L C pend, ok_pos L C -> laid L C pend es ->
    forall pre p post, vis es = pre ++ p :: post ->
    exists b a, fst (emit es (Some L, Some (rec_col C pend)) false) = b ++ pl_text p ++ a /\
      spaced (map pl_text pre) b /\ spaced (map pl_text post) a /\
      end_pos b (fst (out_pos L C)) (snd (out_pos L C)) = out_pos (pl_line p) (pl_col p).
  Proof.
    induction es as [|e es IH]; intros L C pend Hok H pre p post E.
    - destruct pre; discriminate.
    - inversion H as [|? ? ? x l c r Hf Hc Hx Hr|? ? ? l c r Hf Hc Hr|? ? r Hr]; subst; cbn [emit en_text en_line en_col en_ecol].
      + rewrite add_tt_gap. destruct (gap_pos L C pend l c Hok Hf Hc) as (Hp & Hok' & Hb).
        assert (Hok2 : ok_pos l (c + length x)) by (unfold ok_pos in *; lia).
        unfold vis in E. cbn [filter en_vis map] in E. fold (vis es) in E.
        destruct pre as [|q pre].
        * injection E as <- <-. pose proof (emit_spaced es l (c + length x) false Hok2 Hr) as S. cbn [rec_col] in S.
          destruct (emit es (Some l, Some (c + length x)) false) as [b cur]. simpl fst in *.
          exists (gap L C pend l c), b. cbn [pl_text en_placed en_text pl_line en_line pl_col en_col].
          split; [rewrite app_assoc; reflexivity|]. split; [apply spaced_nil; exact Hb|]. split; [exact S|exact Hp].
        * injection E as <- E. destruct (IH l (c + length x) false Hok2 Hr pre p post E) as (b & a & E1 & S1 & S2 & P).
          cbn [rec_col] in E1.
          destruct (emit es (Some l, Some (c + length x)) false) as [bb cur]. simpl fst in *. subst bb.
          exists (gap L C pend l c ++ x ++ b), a. split; [rewrite <- !app_assoc; reflexivity|].
          split; [apply spaced_cons; assumption|]. split; [exact S2|].
          rewrite end_pos_app. cbn [fst] in Hp |- *. rewrite Hp, end_pos_app. rewrite (end_pos_line x) by exact Hx.
          rewrite <- P. simpl fst; simpl snd.
          f_equal. unfold ok_pos in *. destruct (Nat.eqb_spec l L0); lia.
      + rewrite add_tt_gap. destruct (gap_pos L C pend l c Hok Hf Hc) as (Hp & Hok' & Hb).
        unfold vis in E. cbn [filter en_vis] in E. fold (vis es) in E.
        destruct (IH l c true Hok' Hr pre p post E) as (b & a & E1 & S1 & S2 & P). cbn [rec_col] in E1.
        destruct (emit es (Some l, Some (c + 1)) false) as [bb cur]. simpl fst in *. subst bb. rewrite app_nil_r.
        exists (gap L C pend l c ++ b), a. split; [rewrite <- app_assoc; reflexivity|].
        split; [apply spaced_blank; assumption|]. split; [exact S2|]. rewrite end_pos_app, Hp. exact P.
      + rewrite add_tt_gap. unfold gap, rec_col. rewrite Nat.ltb_irrefl.
        destruct (Nat.ltb_spec C (C - 1)); [lia|].
        unfold vis in E. cbn [filter en_vis] in E. fold (vis es) in E.
        destruct (IH L C false Hok Hr pre p post E) as (b & a & E1 & S1 & S2 & P). cbn [rec_col] in E1.
        destruct (emit es (Some L, Some C) false) as [bb cur]. simpl fst in *. subst bb.
        exists b, a. repeat split; assumption.
  Qed.
End Out.

Lemma top_entry x l c e : add_tt x l c e (None, None) true = (chars "    " ++ x, (Some l, Some e)).
Proof. reflexivity. Qed.
Lemma blank_top : blank (chars "    ").
Proof. intros k [<-|[<-|[<-|[<-|[]]]]]; now left. Qed.

Lemma pretty_in_place ts first rest :
  written_all ts = first :: rest -> Forall sized ts -> in_order (written_all ts) ->
  forall pre p post, written_all ts = pre ++ p :: post ->
  exists before after,
    pretty_inner ts = before ++ pl_text p ++ after /\
    spaced (map pl_text pre) before /\ spaced (map pl_text post) after /\
    end_pos before 0 0 = (pl_line p - pl_line first,
                          if Nat.eqb (pl_line p) (pl_line first) then 4 + (pl_col p - pl_col first) else pl_col p - 1).
Proof.
  intros Hw Hs Ho pre p post E. rewrite pretty_inner_emit.
  pose proof (sized_laid_all ts Hs (pl_line first) (pl_col first) false []) as HL.
  rewrite app_nil_r in HL. rewrite Hw in HL. rewrite Hw in Ho.
  assert (HLaid : laid (pl_line first) (pl_col first) false (flat_map entries ts)).
  { apply HL; [right; split; lia|exact Ho|]. destruct (rev (first :: rest)) eqn:Er; [|constructor].
    apply (f_equal (@rev placed)) in Er. rewrite rev_involutive in Er. discriminate. }
  clear HL. rewrite <- vis_written_all in Hw, E.
  set (L0 := pl_line first) in *. set (C0 := pl_col first) in *.
  destruct (flat_map entries ts) as [|e es] eqn:Ees; [discriminate|].
  inversion HLaid as [|? ? ? x l c r Hf Hc Hx Hr E1 E2|? ? ? l c r Hf Hc Hr E1 E2|? ? r Hr E1 E2]; subst.
  - unfold vis in Hw. cbn [filter en_vis map] in Hw. injection Hw as Hw1 Hw2.
    assert (El : l = L0) by (unfold L0; rewrite <- Hw1; reflexivity).
    assert (Ec : c = C0) by (unfold C0; rewrite <- Hw1; reflexivity). clear Hw1. subst l c.
    cbn [emit en_text en_line en_col en_ecol]. rewrite top_entry.
    assert (Hok : ok_pos L0 C0 L0 (C0 + length x)) by (unfold ok_pos; lia).
    unfold vis in E. cbn [filter en_vis map] in E. fold (vis es) in E.
    destruct pre as [|q pre].
    + injection E as <- E. pose proof (emit_spaced L0 C0 es L0 (C0 + length x) false Hok Hr) as S. cbn [rec_col] in S.
      destruct (emit es (Some L0, Some (C0 + length x)) false) as [b cur]. simpl fst in *.
      exists (chars "    "), b. cbn [pl_text en_placed en_text pl_line en_line pl_col en_col].
      split; [simpl; rewrite <- ?app_assoc; reflexivity|]. split; [apply spaced_nil, blank_top|]. rewrite <- E. split; [exact S|].
      rewrite Nat.eqb_refl, !Nat.sub_diag. reflexivity.
    + injection E as <- E. destruct (emit_place L0 C0 es L0 (C0 + length x) false Hok Hr pre p post E) as (b & a & E1 & S1 & S2 & P).
      cbn [rec_col] in E1.
      destruct (emit es (Some L0, Some (C0 + length x)) false) as [bb cur]. simpl fst in *. subst bb.
      exists (chars "    " ++ x ++ b), a. split; [simpl; rewrite <- ?app_assoc; reflexivity|].
      split; [apply spaced_cons; [apply blank_top|exact S1]|]. split; [exact S2|].
      rewrite end_pos_app. change (end_pos (chars "    ") 0 0) with (0, 4). simpl fst; simpl snd.
      rewrite end_pos_app, (end_pos_line x) by exact Hx. simpl fst; simpl snd.
      change (pl_line p - L0, if Nat.eqb (pl_line p) L0 then 4 + (pl_col p - C0) else pl_col p - 1)
        with (out_pos L0 C0 (pl_line p) (pl_col p)).
      rewrite <- P. unfold out_pos. cbn [snd]. rewrite Nat.eqb_refl, Nat.sub_diag. f_equal. lia.
  - cbn [emit en_text en_line en_col en_ecol]. rewrite top_entry.
    assert (Hlc : l = L0 /\ c = C0).
    { clear -Hr Hw L0 C0. unfold vis in Hw. cbn [filter en_vis] in Hw. fold (vis es) in Hw.
      assert (G : forall es l c, laid l c true es -> forall f r, vis es = f :: r -> pl_line f = l /\ pl_col f = c).
      { clear. induction es as [|e es IH]; intros l c H f r Ev; [discriminate|].
        inversion H as [|? ? ? x l' c' r' Hf Hc Hx Hr|? ? ? l' c' r' Hf Hc Hr|]; subst.
        - unfold vis in Ev. cbn [filter en_vis map] in Ev. injection Ev as <- <-. exact Hf.
        - destruct Hf as [-> ->]. unfold vis in Ev. cbn [filter en_vis] in Ev. eapply IH; [exact Hr|exact Ev]. }
      destruct (G es l c Hr first rest Hw) as [<- <-]. split; reflexivity. }
    destruct Hlc as [-> ->].
    assert (Hok : ok_pos L0 C0 L0 C0) by (unfold ok_pos; lia).
    unfold vis in E. cbn [filter en_vis] in E. fold (vis es) in E.
    destruct (emit_place L0 C0 es L0 C0 true Hok Hr pre p post E) as (b & a & E1 & S1 & S2 & P). cbn [rec_col] in E1.
    destruct (emit es (Some L0, Some (C0 + 1)) false) as [bb cur]. simpl fst in *. subst bb.
    exists (chars "    " ++ b), a. split; [simpl; rewrite <- ?app_assoc; reflexivity|].
    split; [apply spaced_blank; [apply blank_top|exact S1]|]. split; [exact S2|].
    rewrite end_pos_app. change (end_pos (chars "    ") 0 0) with (0, 4). simpl fst; simpl snd.
    change (pl_line p - L0, if Nat.eqb (pl_line p) L0 then 4 + (pl_col p - C0) else pl_col p - 1)
      with (out_pos L0 C0 (pl_line p) (pl_col p)).
    rewrite <- P. unfold out_pos. cbn [fst snd]. rewrite Nat.eqb_refl, !Nat.sub_diag. reflexivity.
  - (* a closing delimiter cannot come first *)
    exfalso. clear -Ees Hs Hw L0 C0. rewrite <- Ees, vis_written_all in Hw. destruct ts as [|t ts]; [discriminate|]. simpl in Ees.
    destruct t as [x l c e|v x l c e|d ol oc kids cl ce]; simpl in Ees; try discriminate.
    injection Ees as E1 E2 E3 E4 E5 E6. inversion Hs as [|? ? H1 _]; subst. cbn [sized] in H1. destruct H1 as [_ H1].
    destruct d; try discriminate. destruct H1 as (f & la & fr & ba & H1 & _ & _ & H2 & _).
    simpl in Hw. rewrite H1 in Hw. injection Hw as -> _. unfold C0 in *. lia.
Qed.

(** ** Lines only *)
Definition row (e : entry) : text * nat := (en_text e, en_line e).
Lemma rows_entries t : map row (entries t) = rows t.
Proof.
  induction t as [x l c e|v x l c e|d ol oc kids cl ce IH] using ptt_ind'; try reflexivity.
  assert (Hk : map row (flat_map entries kids) = flat_map rows kids).
  { induction IH as [|k r Hk _ IHr]; [reflexivity|]. simpl. rewrite map_app, Hk, IHr. reflexivity. }
  cbn [entries rows map]. rewrite map_app, Hk. destruct d; reflexivity.
Qed.
Lemma rows_entries_all l : map row (flat_map entries l) = flat_map rows l.
Proof. induction l as [|t l IH]; [reflexivity|]. simpl. rewrite map_app, rows_entries, IH. reflexivity. Qed.

Lemma add_tt_line x l c e L R : L <= l ->
  exists g, add_tt x l c e (Some L, Some R) false = (g ++ x, (Some l, Some e)) /\ blank g /\
    forall i j, fst (end_pos g i j) = i + (l - L).
Proof.
  intros H. unfold add_tt. cbn [fst snd app].
  destruct (Nat.ltb_spec L l).
  - exists (repeat nl (l - L) ++ repeat sp (c - 1)). split; [reflexivity|]. split.
    + intros k Hk. apply in_app_or in Hk. destruct Hk as [Hk|Hk]; apply repeat_spec in Hk; auto.
    + intros i j. rewrite end_pos_app, end_pos_nls, end_pos_sps. reflexivity.
  - assert (l = L) by lia. subst l. destruct (Nat.ltb_spec R c).
    + exists (repeat sp (c - R)). split; [reflexivity|]. split.
      * intros k Hk. apply repeat_spec in Hk; auto.
      * intros i j. rewrite end_pos_sps. simpl. lia.
    + exists []. split; [reflexivity|]. split; [intros k []|]. intros i j. simpl. lia.
Qed.

Lemma emit_rows es : forall L R,
  match map row es with [] => True | r :: _ => L <= snd r end -> line_order (map row es) ->
  Forall (fun r => no_nl (fst r)) (map row es) ->
  forall pre t l post, map row es = pre ++ (t, l) :: post ->
  exists b a, fst (emit es (Some L, Some R) false) = b ++ t ++ a /\
    spaced (map fst pre) b /\ spaced (map fst post) a /\ forall i j, fst (end_pos b i j) = i + (l - L) /\ L <= l.
Proof.
  induction es as [|e es IH]; intros L R HL Ho Hn pre t l post E; [destruct pre; discriminate|].
  cbn [map] in *. unfold row at 1 in HL. cbn [snd] in HL.
  destruct (add_tt_line (en_text e) (en_line e) (en_col e) (en_ecol e) L R HL) as (g & Ea & Hb & Hg).
  rewrite emit_cons, Ea. cbn zeta. cbn [fst snd]. destruct Ho as [Ho1 Ho2]. inversion Hn as [|? ? Hn1 Hn2]; subst.
  assert (HL2 : match map row es with [] => True | r :: _ => en_line e <= snd r end).
  { destruct (map row es); [exact I|exact Ho1]. }
  destruct pre as [|q pre].
  - injection E as E1 E2 E3. subst t l.
    exists g, (fst (emit es (Some (en_line e), Some (en_ecol e)) false)). split; [rewrite <- app_assoc; reflexivity|].
    split; [apply spaced_nil; exact Hb|]. split; [|intros i j; split; [apply Hg|exact HL]].
    rewrite <- E3. clear -IH HL2 Ho2 Hn2.
    assert (G : forall es L R, match map row es with [] => True | r :: _ => L <= snd r end -> line_order (map row es) ->
       spaced (map fst (map row es)) (fst (emit es (Some L, Some R) false))).
    { clear. induction es as [|e es IH]; intros L R HL Ho; [apply spaced_nilnil|].
      cbn [map] in *. unfold row at 1 in HL. cbn [snd] in HL. destruct Ho as [Ho1 Ho2].
      destruct (add_tt_line (en_text e) (en_line e) (en_col e) (en_ecol e) L R HL) as (g & Ea & Hb & _).
      rewrite emit_cons, Ea. cbn zeta. cbn [fst snd]. rewrite <- app_assoc. apply spaced_cons; [exact Hb|].
      apply IH; [destruct (map row es); [exact I|exact Ho1]|exact Ho2]. }
    apply G; assumption.
  - injection E as E1 E2. subst q.
    destruct (IH (en_line e) (en_ecol e) HL2 Ho2 Hn2 pre t l post E2) as (b & a & Eb & S1 & S2 & P).
    rewrite Eb. exists (g ++ en_text e ++ b), a. split; [rewrite <- !app_assoc; reflexivity|].
    split; [cbn [map]; apply spaced_cons; assumption|]. split; [exact S2|]. intros i j.
    rewrite !end_pos_app. rewrite (end_pos_line (en_text e)) by exact Hn1. cbn [fst snd].
    specialize (P (fst (end_pos g i j)) (snd (end_pos g i j) + length (en_text e))). destruct P as [P1 P2].
    rewrite P1, Hg. lia.
Qed.

Lemma pretty_lines_in_place ts t0 l0 rest :
  flat_map rows ts = (t0, l0) :: rest ->
  line_order (flat_map rows ts) -> Forall (fun r => no_nl (fst r)) (flat_map rows ts) ->
  forall pre t l post, flat_map rows ts = pre ++ (t, l) :: post ->
  exists before after,
    pretty_inner ts = before ++ t ++ after /\
    spaced (map fst pre) before /\ spaced (map fst post) after /\ fst (end_pos before 0 0) = l - l0 /\ l0 <= l.
Proof.
  intros Hf Ho Hn pre t l post E. rewrite pretty_inner_emit. rewrite <- rows_entries_all in *.
  destruct (flat_map entries ts) as [|e es]; [discriminate|]. cbn [map] in *. injection Hf as Ht Hl Hr.
  rewrite emit_cons, top_entry. cbn zeta. cbn [fst snd]. destruct Ho as [Ho1 Ho2]. inversion Hn as [|? ? Hn1 Hn2]; subst.
  assert (HL2 : match map row es with [] => True | r :: _ => en_line e <= snd r end).
  { destruct (map row es); [exact I|exact Ho1]. }
  destruct pre as [|q pre].
  - injection E as E1 E2 E3. subst t l post.
    exists (chars "    "), (fst (emit es (Some (en_line e), Some (en_ecol e)) false)).
    split; [rewrite <- app_assoc; reflexivity|]. split; [apply spaced_nil, blank_top|].
    split; [|split; [simpl; lia|lia]].
    destruct es as [|e2 es]; [apply spaced_nilnil|].
    destruct (emit_rows (e2 :: es) (en_line e) (en_ecol e) HL2 Ho2 Hn2 [] (en_text e2) (en_line e2) (map row es) eq_refl)
      as (b & a & Eb & S1 & S2 & _).
    rewrite Eb. cbn [map] in *. inversion S1; subst. apply spaced_cons; assumption.
  - injection E as E1 E2. subst q.
    destruct (emit_rows es (en_line e) (en_ecol e) HL2 Ho2 Hn2 pre t l post E2) as (b & a & Eb & S1 & S2 & P).
    rewrite Eb. exists (chars "    " ++ en_text e ++ b), a. split; [rewrite <- !app_assoc; reflexivity|].
    split; [cbn [map]; apply spaced_cons; [apply blank_top|exact S1]|]. split; [exact S2|].
    rewrite !end_pos_app. rewrite (end_pos_line (en_text e)) by exact Hn1. cbn [fst snd].
    specialize (P (fst (end_pos (chars "    ") 0 0)) (snd (end_pos (chars "    ") 0 0) + length (en_text e))). destruct P as [P1 P2].
    rewrite P1. simpl. lia.
Qed.

(** the text at a position is in the line with that index *)
Lemma split_at b : forall i j t a, no_nl t ->
  exists x y, nth (fst (end_pos b i j) - i) (split_nl (b ++ t ++ a)) [] = x ++ t ++ y /\ i <= fst (end_pos b i j)
    /\ fst (end_pos b i j) - i < length (split_nl (b ++ t ++ a)).
Proof.
  induction b as [|c b IH]; intros i j t a Ht.
  - simpl. rewrite Nat.sub_diag. destruct (split_nl (t ++ a)) as [|l r] eqn:E; [exfalso; exact (split_nl_nonempty _ E)|].
    exists []. simpl nth.
    assert (G : forall t, no_nl t -> forall l r, split_nl (t ++ a) = l :: r -> exists y, l = t ++ y).
    { clear. induction t as [|c t IH]; intros Ht l r E; [exists l; reflexivity|].
      simpl in E. destruct (N.eqb_spec c nl) as [->|]; [exfalso; apply Ht; now left|].
      destruct (split_nl (t ++ a)) as [|l' r'] eqn:E'; [exfalso; exact (split_nl_nonempty _ E')|].
      injection E as <- <-. destruct (IH (fun H => Ht (or_intror H)) l' r' eq_refl) as (y & ->). exists y. reflexivity. }
    destruct (G t Ht l r E) as (y & ->). exists y. simpl. repeat split; lia.
  - simpl. destruct (N.eqb_spec c nl) as [->|Hc].
    + destruct (IH (S i) 0 t a Ht) as (x & y & E1 & E2 & E3). exists x, y.
      replace (fst (end_pos b (S i) 0) - i) with (S (fst (end_pos b (S i) 0) - S i)) by lia.
      simpl. split; [exact E1|]. split; lia.
    + destruct (IH i (S j) t a Ht) as (x & y & E1 & E2 & E3).
      destruct (split_nl (b ++ t ++ a)) as [|l r] eqn:E; [exfalso; exact (split_nl_nonempty _ E)|].
      destruct (fst (end_pos b i (S j)) - i) as [|k] eqn:Ek.
      * simpl in E1. exists (c :: x), y. simpl. rewrite E1. split; [reflexivity|]. split; [lia|]. simpl in E3. lia.
      * simpl in E1. exists x, y. simpl. split; [exact E1|]. split; [lia|]. simpl in E3. lia.
Qed.

Lemma strip_cr_contains x t y : no_cr t -> t <> [] -> exists y', strip_cr (x ++ t ++ y) = x ++ t ++ y'.
Proof.
  intros Hc Hne. destruct y as [|c y] using rev_ind.
  - exists []. rewrite app_nil_r. clear -Hc Hne.
    destruct (exists_last Hne) as (t' & c & ->).
    assert (Hcc : c <> cr). { intros ->. apply Hc. apply in_or_app. right; now left. }
    rewrite app_assoc. generalize (x ++ t') as z. clear -Hcc. induction z as [|d z IH].
    + simpl. destruct (N.eqb_spec c cr); [congruence|reflexivity].
    + destruct z as [|d2 z].
      * simpl in *. destruct (N.eqb_spec c cr); [congruence|reflexivity].
      * change ((d :: d2 :: z) ++ [c]) with (d :: ((d2 :: z) ++ [c])).
        change (strip_cr (d :: (d2 :: z) ++ [c])) with (d :: strip_cr ((d2 :: z) ++ [c])). rewrite IH. reflexivity.
  - clear IHy. enough (G0 : forall z0, exists y', strip_cr (z0 ++ y ++ [c]) = z0 ++ y').
    { destruct (G0 (x ++ t)) as (y' & E). exists y'. rewrite <- !app_assoc in E. exact E. }
    clear x t Hc Hne. intros z0.
    assert (G : forall z, exists u, strip_cr (z ++ [c]) = z ++ u).
    { induction z as [|d z IH].
      - simpl. destruct (N.eqb c cr); [exists []; reflexivity|exists [c]; reflexivity].
      - destruct IH as (u & IH). destruct z as [|d2 z].
        + simpl in *. destruct (N.eqb c cr); exists u; rewrite IH; reflexivity.
        + exists u. change ((d :: d2 :: z) ++ [c]) with (d :: ((d2 :: z) ++ [c])).
          change (strip_cr (d :: (d2 :: z) ++ [c])) with (d :: strip_cr ((d2 :: z) ++ [c])). rewrite IH. reflexivity. }
    rewrite app_assoc. destruct (G (z0 ++ y)) as (u & E). rewrite E. exists (y ++ u). rewrite app_assoc. reflexivity.
Qed.

Lemma lines_of_nth ls : forall i x t y, nth i ls [] = x ++ t ++ y -> i < length ls -> no_cr t -> t <> [] ->
  exists y', nth i (lines_of ls) [] = x ++ t ++ y' /\ i < length (lines_of ls).
Proof.
  induction ls as [|l r IH]; intros i x t y E Hi Hc Hne; [simpl in Hi; lia|]. destruct r as [|l2 r].
  - simpl in Hi. assert (i = 0) by lia. subst i. simpl in E. subst l. simpl lines_of.
    destruct (x ++ t ++ y) eqn:E.
    + exfalso. apply app_eq_nil in E. destruct E as [_ E]. apply app_eq_nil in E. tauto.
    + exists y. simpl. split; [symmetry; exact E|lia].
  - change (lines_of (l :: l2 :: r)) with (strip_cr l :: lines_of (l2 :: r)). destruct i as [|i].
    + simpl in E. subst l. destruct (strip_cr_contains x t y Hc Hne) as (y' & E'). exists y'. simpl. split; [exact E'|lia].
    + simpl in E, Hi. destruct (IH i x t y E ltac:(simpl; lia) Hc Hne) as (y' & E' & Hi'). exists y'. simpl nth. split; [exact E'|apply -> Nat.succ_lt_mono; exact Hi'].
Qed.

(** a token is shown on the line numbered like the line it is written on *)
Lemma number_is_source_line e t0 last_line rest top bottom :
  flat_map rows (pe_toks e) = (t0, pe_start e) :: rest ->
  line_order (flat_map rows (pe_toks e)) -> Forall (fun r => no_nl (fst r)) (flat_map rows (pe_toks e)) ->
  pe_end e = last_line -> pe_start e + length (lines (pretty_inner (pe_toks e))) <= S last_line ->
  exists out,
    pr_body (into_pretty_str e (mk_ps true top bottom)) = stacked out /\
    forall t l, In (t, l) (flat_map rows (pe_toks e)) -> t <> [] -> no_cr t ->
    exists m mark x y, nth (l - pe_start e) out [] = m ++ mark :: x ++ t ++ y /\ l - pe_start e < length out /\
      right_aligned (Nat.max 4 (length (dec_chars last_line))) l m.
Proof.
  intros Hf Ho Hn He Hl. unfold into_pretty_str. cbn [ps_show ps_top ps_bottom]. rewrite He.
  destruct (line_numbers (pretty_inner (pe_toks e)) (pe_start e) last_line top bottom Hl) as (out & E1 & E2 & E3 & _).
  exists out. split; [exact E1|]. intros t l Hin Ht Hc. apply in_split in Hin. destruct Hin as (pre & post & Hin).
  destruct (pretty_lines_in_place _ _ _ _ Hf Ho Hn _ _ _ _ Hin) as (b & a & Eb & _ & _ & P & Hll).
  assert (Hnt : no_nl t). { rewrite Hin in Hn. apply Forall_app in Hn. destruct Hn as [_ Hn]. inversion Hn; subst. assumption. }
  destruct (split_at b 0 0 t a Hnt) as (x & y & E4 & _ & E5). rewrite Nat.sub_0_r, P, <- Eb in E4, E5.
  destruct (lines_of_nth _ _ _ _ _ E4 E5 Hc Ht) as (y' & E6 & E7).
  assert (Hi : l - pe_start e < length out) by (rewrite E2; exact E7).
  destruct (E3 _ Hi) as (m & Em & Hm). unfold lines in Em. rewrite E6 in Em.
  exists m, (if Nat.eqb (l - pe_start e) 0 then 62%N else 124%N), x, y'. split; [|split].
  - rewrite Em. destruct (Nat.eqb (l - pe_start e) 0); reflexivity.
  - exact Hi.
  - replace l with (pe_start e + (l - pe_start e)) by lia. exact Hm.
Qed.

(** ** Without any assumption on positions *)
Lemma add_tt_blank x l c e cur top :
  exists g cur', add_tt x l c e cur top = (g ++ x, cur') /\ blank g.
Proof.
  destruct cur as [L R]. unfold add_tt. cbn [fst snd]. eexists. eexists. split; [rewrite app_assoc; reflexivity|].
  intros k Hk. apply in_app_or in Hk. destruct Hk as [Hk|Hk].
  - destruct top; [|destruct Hk]. apply blank_top; exact Hk.
  - assert (G : In k (match R with Some c0 => if (c0 <? c)%nat then repeat sp (c - c0) else [] | None => [] end) -> k = sp \/ k = nl).
    { destruct R as [R|]; [|intros []]. destruct (R <? c)%nat; [|intros []]. intros H. apply repeat_spec in H. auto. }
    destruct L as [L|]; [|apply G; exact Hk]. destruct (L <? l)%nat; [|apply G; exact Hk].
    apply in_app_or in Hk. destruct Hk as [Hk|Hk]; apply repeat_spec in Hk; auto.
Qed.
Lemma emit_spaced_any es : forall cur top, spaced (map en_text es) (fst (emit es cur top)).
Proof.
  induction es as [|e es IH]; intros cur top; [apply spaced_nilnil|].
  rewrite emit_cons. destruct (add_tt_blank (en_text e) (en_line e) (en_col e) (en_ecol e) cur top) as (g & cur' & E & Hb).
  rewrite E. cbn zeta. cbn [fst snd]. rewrite <- app_assoc. cbn [map]. apply spaced_cons; [exact Hb|apply IH].
Qed.
Lemma pretty_spaced ts : spaced (map fst (flat_map rows ts)) (pretty_inner ts).
Proof.
  rewrite pretty_inner_emit, <- rows_entries_all, map_map. apply emit_spaced_any.
Qed.

Lemma visible_blank g : blank g -> visible g = [].
Proof.
  intros H. induction g as [|c g IH]; [reflexivity|]. unfold visible in *. simpl.
  destruct (H c (or_introl eq_refl)) as [->| ->]; simpl; apply IH; intros k Hk; apply H; now right.
Qed.
Lemma visible_spaced l s : spaced l s -> visible s = flat_map visible l.
Proof.
  induction 1 as [g Hg|g t r s Hg Hs IH]; [apply visible_blank; exact Hg|].
  rewrite !visible_app, (visible_blank g Hg), IH. reflexivity.
Qed.

Lemma one_line_all_visible escape e t :
  visible (one_line_pretty_str escape e t) =
  flat_map visible (map fst (flat_map rows (pe_toks (apply_trunc escape t e)))).
Proof. rewrite one_line_visible. apply visible_spaced, pretty_spaced. Qed.
