(** Proofs about test-helpers/src/lib.rs. *)
From Coq Require Import String Ascii Bool Arith Lia List.
From Verif Require Import Base Io Mask ScriptSpec SyncProofs.
Import ListNotations.
Open Scope string_scope.

Lemma app_assoc_s a b c : ((a ++ b) ++ c = a ++ (b ++ c))%string.
Proof. induction a as [|x a IH]; [reflexivity | cbn; rewrite IH; reflexivity]. Qed.
Lemma app_nil_s a : (a ++ "" = a)%string.
Proof. induction a as [|x a IH]; [reflexivity | cbn; rewrite IH; reflexivity]. Qed.
Lemma len_app a b : String.length (a ++ b) = String.length a + String.length b.
Proof. induction a as [|x a IH]; [reflexivity | cbn; rewrite IH; reflexivity]. Qed.

Lemma strip_iff p : forall s r, strip p s = Some r <-> s = (p ++ r)%string.
Proof.
  induction p as [|a p IH]; intros s r; cbn.
  - destruct s; split; intros H; congruence.
  - destruct s as [|b s]; [split; intros H; discriminate|].
    destruct (Ascii.eqb_spec a b) as [->|N].
    + rewrite IH. split; intros H; [subst; reflexivity | injection H as ->; reflexivity].
    + split; intros H; [discriminate | injection H as E _; congruence].
Qed.

(** The result of [replace] as a relation: where the pattern stands in front it is replaced, elsewhere a character is copied. *)
Inductive replaced (from to : string) : string -> string -> Prop :=
| r_nil : replaced from to "" ""
| r_hit r r' : replaced from to r r' -> replaced from to (from ++ r) (to ++ r')
| r_copy c r r' : (forall q, String c r <> (from ++ q)%string) -> replaced from to r r' ->
    replaced from to (String c r) (String c r').

Lemma replace_fuel_spec from to : from <> "" -> forall n s, String.length s <= n ->
  replaced from to s (replace_fuel n from to s).
Proof.
  intros NE. induction n as [|n IH]; intros s L.
  - destruct s; [constructor | cbn in L; lia].
  - cbn. destruct (strip from s) as [r|] eqn:E.
    + apply strip_iff in E; subst s. constructor. apply IH. rewrite len_app in L.
      destruct from; [congruence | cbn in L; lia].
    + destruct s as [|c s]; [constructor|]. constructor.
      * intros q Q. apply strip_iff in Q. congruence.
      * apply IH. cbn in L; lia.
Qed.

Lemma replace_spec from to s : from <> "" -> replaced from to s (replace from to s).
Proof.
  intros NE. unfold replace. destruct from as [|c f]; [congruence|]. apply replace_fuel_spec; [exact NE | lia].
Qed.

Lemma app_cancel p a b : (p ++ a = p ++ b)%string -> a = b.
Proof. induction p as [|c p IH]; cbn; [auto|]. intros H; injection H as H; auto. Qed.

Lemma replaced_fun from to : from <> "" -> forall s x, replaced from to s x -> forall y, replaced from to s y -> x = y.
Proof.
  intros NE s x H; induction H as [|r r' H IH|c r r' N H IH]; intros y K.
  - inversion K as [|r r' K1 E|]; subst; [reflexivity|]. destruct from; [congruence | discriminate].
  - inversion K as [E|r2 r2' K1 E|c r2 r2' N K1 E].
    + destruct from; [congruence | discriminate].
    + apply app_cancel in E; subst. f_equal. apply IH, K1.
    + exfalso. eapply N. symmetry. rewrite <- E. reflexivity.
  - inversion K as [|r2 r2' K1 E|c2 r2 r2' N2 K1 E]; subst.
    + exfalso. eapply N. rewrite <- E. reflexivity.
    + f_equal. apply IH, K1.
Qed.

Lemma occurs_tail p c s : occurs p s -> occurs p (String c s).
Proof. intros (a & b & ->). exists (String c a), b. reflexivity. Qed.
Lemma occurs_app p q s : occurs p s -> occurs p (q ++ s).
Proof. intros (a & b & ->). exists (q ++ a)%string, b. rewrite app_assoc_s. reflexivity. Qed.

(** two splits of one text *)
Lemma split_cases a : forall b c d, (a ++ b = c ++ d)%string ->
  (exists m, c = (a ++ m)%string /\ b = (m ++ d)%string) \/ (exists m, m <> "" /\ a = (c ++ m)%string /\ d = (m ++ b)%string).
Proof.
  induction a as [|x a IH]; intros b c d E.
  - left. exists c. split; [reflexivity | exact E].
  - destruct c as [|y c].
    + right. exists (String x a). split; [discriminate | split; [reflexivity | symmetry; exact E]].
    + cbn in E. injection E as -> E. destruct (IH _ _ _ E) as [(m & -> & H)|(m & N & -> & H)].
      * left. exists m. split; [reflexivity | exact H].
      * right. exists m. split; [exact N | split; [reflexivity | exact H]].
Qed.

(** where a part of the end of [to] stands in the result, it was copied: it is not the beginning of a new [to] *)
Lemma copied from to : unbordered to -> forall s x, replaced from to s x ->
  forall v u q, v <> "" -> u <> "" -> to = (v ++ u)%string -> x = (u ++ q)%string -> exists q', s = (u ++ q')%string.
Proof.
  intros U s x H; induction H as [|r r' H IH|c r r' N H IH]; intros v u q Nv Nu E X.
  - destruct u; [congruence | discriminate].
  - exfalso. destruct (split_cases _ _ _ _ X) as [(m & M & _)|(m & _ & M & _)].
    + apply (f_equal String.length) in M. rewrite E, !len_app in M. destruct v; [congruence | cbn in M; lia].
    + apply (U v u m); assumption.
  - destruct u as [|d u]; [congruence|]. cbn in X. injection X as -> X.
    destruct u as [|d' u]; [exists r; reflexivity|].
    destruct (IH (v ++ String d "")%string (String d' u) q) as (q' & ->).
    + destruct v; discriminate.
    + discriminate.
    + rewrite E, app_assoc_s. reflexivity.
    + exact X.
    + exists q'. reflexivity.
Qed.

Lemma replaced_back from to : to <> "" -> unbordered to -> forall s x, replaced from to s x ->
  ~ occurs to s -> replaced to from x s.
Proof.
  intros NE U s x H; induction H as [|r r' H IH|c r r' N H IH]; intros O.
  - constructor.
  - constructor. apply IH. intros Q; apply O, occurs_app, Q.
  - constructor; [|apply IH; intros Q; apply O, occurs_tail, Q].
    intros q Q. destruct to as [|d t]; [congruence|]. cbn in Q. injection Q as -> Q.
    destruct t as [|e t].
    + apply O. exists "", r. reflexivity.
    + destruct (copied _ _ U _ _ H (String d "") (String e t) q) as (q' & ->); try discriminate; [reflexivity | exact Q|].
      apply O. exists "", q'. reflexivity.
Qed.

Theorem replace_back from to s : from <> "" -> to <> "" -> unbordered to -> ~ occurs to s ->
  replace to from (replace from to s) = s.
Proof.
  intros NF NT U O.
  eapply replaced_fun; [exact NT | apply replace_spec, NT |].
  eapply replaced_back; [exact NT | exact U | apply replace_spec, NF | exact O].
Qed.

(** ** The placeholder *)

Lemma occurs_char_app c a b : occurs (String c "") (a ++ b) -> occurs (String c "") a \/ occurs (String c "") b.
Proof.
  intros (x & y & E). destruct (split_cases _ _ _ _ E) as [(m & -> & ->)|(m & N & -> & E2)].
  - right. exists m, y. reflexivity.
  - left. destruct m as [|d m]; [congruence|]. cbn in E2. injection E2 as <- _. exists x, m. reflexivity.
Qed.
Lemma occurs_char_cons c d a : occurs (String c "") (String d a) <-> c = d \/ occurs (String c "") a.
Proof.
  split.
  - intros (x & y & E). destruct x as [|z x]; cbn in E; injection E as -> E; [left; reflexivity | right; exists x, y; exact E].
  - intros [->|H]; [exists "", a; reflexivity | apply occurs_tail, H].
Qed.
Lemma occurs_char_nil c : ~ occurs (String c "") "".
Proof. intros (x & y & E). destruct x; discriminate. Qed.

Ltac no_char := intros Q; repeat (apply occurs_char_cons in Q as [Q|Q]; [discriminate Q|]); exact (occurs_char_nil _ Q).

Lemma placeholder_unbordered : unbordered placeholder.
Proof.
  unfold placeholder. intros a b c Na Nb E F.
  destruct a as [|a0 a]; [congruence|]. destruct b as [|b0 b]; [congruence|].
  cbn in E, F. injection E as <- E. injection F as <- F.
  assert (O : occurs "<" "hooq_root>") by (rewrite E; exists a, b; reflexivity).
  revert O. no_char.
Qed.

Lemma copied_plain from to d t : to = String d t -> forall s x, replaced from to s x ->
  forall u q, ~ occurs (String d "") u -> x = (u ++ q)%string -> exists q', s = (u ++ q')%string.
Proof.
  intros T s x H; induction H as [|r r' H IH|c r r' N H IH]; intros u q O X.
  - destruct u; [exists ""; reflexivity | discriminate].
  - destruct u as [|e u]; [exists (from ++ r)%string; reflexivity|].
    rewrite T in X. cbn in X. injection X as -> X. exfalso. apply O, occurs_char_cons. left; reflexivity.
  - destruct u as [|e u]; [exists (String c r); reflexivity|]. cbn in X. injection X as -> X.
    destruct (IH u q) as (q' & ->); [intros Q; apply O, occurs_tail, Q | exact X | exists q'; reflexivity].
Qed.

Lemma replaced_gone root : root <> "" -> occurs "/" root -> ~ occurs "<" root -> ~ occurs ">" root ->
  forall s x, replaced root placeholder s x -> ~ occurs root x.
Proof.
  intros NE SL LT GT s x H; induction H as [|r r' H IH|c r r' N H IH]; intros (a & b & E).
  - destruct a; [destruct root; [congruence | discriminate] | discriminate].
  - destruct (split_cases _ _ _ _ E) as [(m & -> & M)|(m & Nm & M & M2)].
    + apply IH. exists m, b. exact M.
    + assert (G : occurs ">" m).
      { assert (P : occurs ">" placeholder) by (exists "<hooq_root", ""; reflexivity).
        assert (Q : forall z m, m <> "" -> (z ++ m = "<hooq_root>")%string -> occurs ">" m).
        { clear. intros z m Nm Q.
          repeat (destruct z as [|? z]; cbn in Q;
            [subst m; repeat (apply occurs_char_cons; first [left; reflexivity | right]) | injection Q as _ Q]).
          destruct m; [congruence|]. destruct z; discriminate. }
        apply (Q a m Nm). symmetry. exact M. }
      destruct (split_cases _ _ _ _ M2) as [(m2 & -> & _)|(m2 & _ & -> & _)].
      * assert (S : occurs "/" placeholder).
        { rewrite M. apply occurs_app. destruct SL as (y & z & ->). exists y, (z ++ m2)%string. rewrite !app_assoc_s. reflexivity. }
        revert S. unfold placeholder. no_char.
      * apply GT. destruct G as (y & z & ->). exists y, (z ++ m2)%string. rewrite !app_assoc_s. reflexivity.
  - destruct a as [|a0 a].
    + destruct root as [|e t]; [congruence|]. cbn in E. injection E as -> E.
      destruct (copied_plain _ placeholder "<"%char "hooq_root>" eq_refl _ _ H t b) as (q' & ->);
        [intros Q; apply LT, occurs_tail, Q | exact E |].
      apply (N q'). reflexivity.
    + cbn in E. injection E as -> E. apply IH. exists a, b. exact E.
Qed.

Lemma replaced_same from to : from <> "" -> forall s, ~ occurs from s -> replaced from to s s.
Proof.
  intros NE s; induction s as [|c s IH]; intros O; [constructor|]. constructor.
  - intros q Q. apply O. exists "", q. exact Q.
  - apply IH. intros Q. apply O, occurs_tail, Q.
Qed.
Lemma replace_same from to s : from <> "" -> ~ occurs from s -> replace from to s = s.
Proof. intros NE O. eapply replaced_fun; [exact NE | apply replace_spec, NE | apply replaced_same; assumption]. Qed.

(** the placeholder is gone after unmasking, where the root begins with a slash and has no [<] *)
Lemma placeholder_gone root t : root = String "/" t -> ~ occurs "<" root ->
  forall s x, replaced placeholder root s x -> ~ occurs placeholder x.
Proof.
  intros R LT s x H; induction H as [|r r' H IH|c r r' N H IH]; intros (a & b & E).
  - destruct a; discriminate.
  - destruct (split_cases _ _ _ _ E) as [(m & -> & M)|(m & Nm & M & M2)].
    + apply IH. exists m, b. exact M.
    + destruct m as [|d m]; [congruence|]. unfold placeholder in M2. cbn in M2. injection M2 as <- _.
      apply LT. rewrite M. exists a, m. reflexivity.
  - destruct a as [|a0 a].
    + unfold placeholder in E. cbn in E. injection E as -> E.
      destruct (copied_plain _ root "/"%char t R _ _ H "hooq_root>" b) as (q' & ->); [no_char | exact E |].
      apply (N q'). reflexivity.
    + cbn in E. injection E as -> E. apply IH. exists a, b. exact E.
Qed.

(** ** The files *)

Section Files.
  Variable X : outside.
  Variable root : string.

  Fixpoint listed (l : list (option string)) : list string :=
    match l with [] => [] | Some p :: r => p :: listed r | None :: r => listed r end%list.

  Definition one (m : mask_mode) (entry : option string) : io unit :=
    match entry with
    | None => ret tt
    | Some path => bind (read path) (fun content => write X path (processed root m content))
    end.

  Lemma mask_done m l : NoDup (listed l) -> forall w w', each l (one m) w = (Done tt, w') ->
    forall q, w_files w' q = if in_dec string_dec q (listed l) then option_map (processed root m) (w_files w q) else w_files w q.
  Proof.
    induction l as [|[p|] l IH]; cbn [each listed]; intros ND w w' H q.
    - apply ret_done in H as [_ ->]. reflexivity.
    - apply bind_done in H as ([] & w1 & H & K). cbn [one] in H.
      apply bind_done in H as (t & w2 & R & H). apply read_done in R as [R ->]. apply write_done in H as [_ ->].
      inversion ND as [|p0 l0 NI ND']; subst. rewrite (IH ND' _ _ K q). cbn [w_files]. unfold put.
      destruct (String.eqb_spec q p) as [->|D].
      + destruct (in_dec string_dec p (listed l)) as [I|_]; [contradiction|].
        destruct (in_dec string_dec p (p :: listed l)%list) as [_|I]; [|exfalso; apply I; left; reflexivity].
        rewrite R. reflexivity.
      + destruct (in_dec string_dec q (listed l)) as [I|I], (in_dec string_dec q (p :: listed l)%list) as [J|J]; try reflexivity.
        * exfalso. apply J; right; exact I.
        * destruct J as [J|J]; [congruence | contradiction].
    - apply bind_done in H as ([] & w1 & H & K). cbn [one] in H. apply ret_done in H as [_ ->]. apply IH; assumption.
  Qed.

  (** whatever the outcome *)
  Lemma mask_any m l : NoDup (listed l) -> forall w q,
    let fs := w_files (snd (each l (one m) w)) in
    (~ In q (listed l) -> fs q = w_files w q) /\ (fs q = w_files w q \/ fs q = option_map (processed root m) (w_files w q)).
  Proof.
    induction l as [|[p|] l IH]; cbn [each listed]; intros ND w q; cbv zeta.
    - split; [reflexivity | left; reflexivity].
    - inversion ND as [|p0 l0 NI ND']; subst.
      assert (E : bind (one m (Some p)) (fun _ => each l (one m)) w =
        match w_files w p with
        | Some t => if x_can_write X p (w_files w)
                    then each l (one m) (World (put p (processed root m t) (w_files w)) (w_done w ++ [Wrote p (processed root m t)]))
                    else (Stop (TWrite p), w)
        | None => (Stop (TRead p), w)
        end).
      { cbn [one]. unfold bind, read, write. destruct (w_files w p) as [t|]; [|reflexivity].
        destruct (x_can_write X p (w_files w)); reflexivity. }
      rewrite E. clear E.
      destruct (w_files w p) as [t|] eqn:R; [|split; [reflexivity | left; reflexivity]].
      destruct (x_can_write X p (w_files w)); [|split; [reflexivity | left; reflexivity]].
      set (w1 := World (put p (processed root m t) (w_files w)) (w_done w ++ [Wrote p (processed root m t)])).
      destruct (IH ND' w1 q) as [A B]. destruct (IH ND' w1 p) as [C _]. specialize (C NI).
      destruct (String.eqb_spec q p) as [->|D].
      + split; [intros Q; exfalso; apply Q; left; reflexivity|]. right. rewrite C, R. cbn. unfold put. rewrite String.eqb_refl. reflexivity.
      + assert (F : w_files w1 q = w_files w q) by (cbn; unfold put; apply String.eqb_neq in D; rewrite D; reflexivity).
        rewrite F in A, B. split; [|exact B]. intros Q. apply A. intros I. apply Q. right. exact I.
    - unfold bind. cbn [one ret]. apply IH. exact ND.
  Qed.
End Files.
