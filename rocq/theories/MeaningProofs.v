(** A hook that only observes leaves the meaning of the program as it is.  *)
From Coq Require Import String Ascii Bool Arith List.
From Verif Require Import Base Tokens Method Paths Context Flavor Attrs Syntax SyntaxInd Walker AttrSpec AttrProofs SiteSpec ProgSpec WalkSpec WalkFacts BareProofs MeaningSpec.
Import ListNotations.
Open Scope string_scope.
Open Scope list_scope.

Definition no_hook (e : expr) : bool := match e with EHook _ _ _ => false | _ => true end.

(** * [bare] and [actual] keep shapes *)
Lemma map_const {A B C} (f : A -> B) (c : C) (l : list A) : map (fun _ => c) (map f l) = map (fun _ => c) l.
Proof. induction l; cbn; congruence. Qed.
Lemma opt_const {A B C} (f : A -> B) (c : C) (o : option A) : option_map (fun _ => c) (option_map f o) = option_map (fun _ => c) o.
Proof. destruct o; reflexivity. Qed.
Lemma opt_one (f : expr -> expr) o : opt_list one (option_map f o) = map f (opt_list one o).
Proof. destruct o; reflexivity. Qed.
Lemma flat_parts {A} (F : expr -> expr) (G : A -> A) (p : A -> list expr) l : Forall (fun s => p (G s) = map F (p s)) l -> flat_map p (map G l) = map F (flat_map p l).
Proof. induction 1 as [|x l H _ IH]; cbn; [reflexivity|]. rewrite map_app. congruence. Qed.
Lemma flat_same {A B} (G : A -> A) (p : A -> list B) l : Forall (fun s => p (G s) = p s) l -> flat_map p (map G l) = flat_map p l.
Proof. induction 1 as [|x l H _ IH]; cbn; [reflexivity|]. congruence. Qed.
Lemma map_shape {A} (G s : A -> A) l : Forall (fun x => s (G x) = s x) l -> map s (map G l) = map s l.
Proof. induction 1 as [|x l H _ IH]; cbn; [reflexivity|]. congruence. Qed.
Lemma Forall_3 {A} (P Q S : A -> Prop) l : Forall (fun x => P x /\ Q x /\ S x) l -> Forall P l /\ Forall Q l /\ Forall S l.
Proof. induction 1 as [|x l (H & H2 & H3) _ (I & I2 & I3)]; repeat split; constructor; assumption. Qed.

(** a map of programs that works expression by expression *)
Definition keeps {A} (sh : A -> A) (pa : A -> list expr) (op : A -> list path) (F : expr -> expr) (G : A -> A) (x : A) : Prop :=
  sh (G x) = sh x /\ pa (G x) = map F (pa x) /\ op (G x) = op x.
Definition noop {A} (x : A) : list path := [].
Lemma keeps_list {A} sh pa op F G (l : list A) : Forall (keeps sh pa op F G) l ->
  map sh (map G l) = map sh l /\ flat_map pa (map G l) = map F (flat_map pa l) /\ flat_map op (map G l) = flat_map op l.
Proof.
  intros H. apply Forall_3 in H. destruct H as (H1 & H2 & H3). split; [exact (map_shape G sh l H1)|]. split; [exact (flat_parts F G pa l H2)|exact (flat_same G op l H3)].
Qed.
Ltac t_keeps :=
  repeat match goal with
  | H : Forall (keeps _ _ _ _ _) _ |- _ => apply keeps_list in H; destruct H as (? & ? & ?)
  | H : keeps _ _ _ _ _ _ |- _ => destruct H as (? & ? & ?)
  end;
  unfold keeps; cbn; rewrite ?foreign_idem, ?map_const, ?opt_const, ?map_app, ?opt_one; cbn;
  repeat match goal with H : _ = _ |- _ => rewrite H; clear H end; auto.

Lemma keeps_bare :
  (forall e, no_hook e = true -> keeps shape parts opened bare bare e) /\ (forall s, keeps stmt_shape stmt_parts stmt_opened bare stmt_bare s) /\
  (forall i, keeps item_shape item_parts item_opened bare item_bare i) /\ (forall i, keeps impl_shape impl_parts impl_opened bare impl_bare i) /\
  (forall i, keeps trait_shape trait_parts trait_opened bare trait_bare i) /\ (forall r, keeps arm_shape arm_parts noop bare arm_bare r) /\
  (forall x, keeps field_shape field_parts noop bare field_bare x) /\ (forall m, keeps mac_shape mac_parts mac_opened bare mac_bare m) /\
  (forall v, keeps ev_shape ev_parts ev_opened bare ev_bare v).
Proof.
  apply syntax_ind; intros; try discriminate; try (t_keeps; fail).
  destruct view as [l|]; [|repeat split]. cbn [optP] in H. t_keeps.
Qed.
Lemma keeps_actual :
  (forall e, no_hook e = true -> keeps shape parts opened actual actual e) /\ (forall s, keeps stmt_shape stmt_parts stmt_opened actual stmt_actual s) /\
  (forall i, keeps item_shape item_parts item_opened actual item_actual i) /\ (forall i, keeps impl_shape impl_parts impl_opened actual impl_actual i) /\
  (forall i, keeps trait_shape trait_parts trait_opened actual trait_actual i) /\ (forall r, keeps arm_shape arm_parts noop actual arm_actual r) /\
  (forall x, keeps field_shape field_parts noop actual field_actual x) /\ (forall m, keeps mac_shape mac_parts mac_opened actual mac_actual m) /\
  (forall v, keeps ev_shape ev_parts ev_opened actual ev_actual v).
Proof.
  apply syntax_ind; intros; try discriminate; try (t_keeps; fail).
  destruct view as [l|]; [|repeat split]. cbn [optP] in H. t_keeps.
Qed.

(** * The macros opened are those of the source *)
Definition macs (l : list expr) : list path := flat_map opened l.
Lemma macs_app a b : macs (a ++ b) = macs a ++ macs b.
Proof. apply flat_map_app. Qed.
Lemma macs_flat {A} (f : A -> list expr) (G : A -> A) l : Forall (fun x => macs (f (G x)) = macs (f x)) l -> macs (flat_map f (map G l)) = macs (flat_map f l).
Proof. induction 1 as [|x l H _ IH]; cbn [map flat_map]; [reflexivity|]. rewrite !macs_app. congruence. Qed.
Lemma macs_opt o : optP (fun e => macs (subs (bare e)) = macs (subs e)) o -> macs (opt_list subs (option_map bare o)) = macs (opt_list subs o).
Proof. destruct o; [exact (fun H => H)|reflexivity]. Qed.
Lemma macs_last l e : macs (l ++ [e]) = macs l ++ opened e.
Proof. rewrite macs_app. cbn. rewrite app_nil_r. reflexivity. Qed.
Lemma opened_bare e : no_hook e = true -> opened (bare e) = opened e.
Proof. exact (fun H => proj2 (proj2 (proj1 keeps_bare e H))). Qed.
Lemma macs_node e l l' : no_hook e = true -> macs l = macs l' -> macs (l ++ [bare e]) = macs (l' ++ [e]).
Proof. intros H He. rewrite !macs_last, He, (opened_bare e H). reflexivity. Qed.

#[local] Arguments macs : simpl never.
Ltac t_macs := rewrite ?macs_app;
  repeat match goal with
  | H : Forall _ ?b |- context [macs (flat_map _ (map _ ?b))] => rewrite (macs_flat _ _ b H)
  | H : optP _ ?o |- context [macs (opt_list _ (option_map _ ?o))] => rewrite (macs_opt o H)
  | H : macs _ = macs _ |- _ => rewrite H
  end; auto.
Lemma macs_bare :
  (forall e, macs (subs (bare e)) = macs (subs e)) /\ (forall s, macs (stmt_subs (stmt_bare s)) = macs (stmt_subs s)) /\
  (forall i, macs (item_subs (item_bare i)) = macs (item_subs i)) /\ (forall i, macs (impl_subs (impl_bare i)) = macs (impl_subs i)) /\
  (forall i, macs (trait_subs (trait_bare i)) = macs (trait_subs i)) /\ (forall r, macs (arm_subs (arm_bare r)) = macs (arm_subs r)) /\
  (forall x, macs (field_subs (field_bare x)) = macs (field_subs x)) /\ (forall m, macs (mac_subs (mac_bare m)) = macs (mac_subs m)) /\
  (forall v, macs (ev_subs (ev_bare v)) = macs (ev_subs v)).
Proof.
  apply syntax_ind; intros;
    try (match goal with |- macs (subs (bare ?e)) = _ => let E := constr:(macs_node e) in cbn [bare subs] in *; apply E; [reflexivity|]; t_macs end; fail);
    try (cbn; t_macs; fail).
  - cbn [bare subs]. destruct (h_consumed h) as [[a sp]|]; cbn [subs]; rewrite !macs_last; cbn [opened]; rewrite ?app_nil_r; exact H.
  - destruct view as [l|]; [|reflexivity]. cbn [optP] in H. cbn. t_macs.
Qed.

(** * The meaning of what replaces a program *)
Section Meaning.
  Variable P : path -> Prop.
  Variable R : expr -> expr -> Prop.
  Hypothesis HR : congruence P R.

  (** what is known of a sub-expression: a hook observes, a macro that is opened sees meanings *)
  Definition fine (e : expr) : Prop := match e with EHook h o r => R (replaced h o) r | _ => Forall P (opened e) end.
  Definition means (e : expr) : Prop := R (bare e) (actual e).
  Lemma pairs l : Forall means l -> Forall2 R (map bare l) (map actual l).
  Proof. induction 1; cbn [map]; constructor; assumption. Qed.
  Lemma means_node e l : no_hook e = true -> Forall fine (l ++ [e]) -> (Forall fine l -> Forall means (parts e)) -> means e.
  Proof.
    intros Hn Hf Hp. apply Forall_app in Hf. destruct Hf as [Hl He]. specialize (Hp Hl). inversion_clear He.
    destruct (proj1 keeps_bare e Hn) as (B1 & B2 & B3). destruct (proj1 keeps_actual e Hn) as (A1 & A2 & A3).
    apply (cg_node P R HR); [congruence| |rewrite B2, A2; apply pairs; exact Hp].
    rewrite B3. destruct e; try exact H; discriminate.
  Qed.
  Lemma fine_flat {A} (f : A -> list expr) (g : A -> list expr) l : Forall (fun x => Forall fine (f x) -> Forall means (g x)) l -> Forall fine (flat_map f l) -> Forall means (flat_map g l).
  Proof. induction 1 as [|x l H _ IH]; cbn [flat_map]; [auto|]. rewrite !Forall_app. tauto. Qed.
  Lemma fine_list l : Forall (fun x => Forall fine (subs x) -> means x) l -> Forall fine (flat_map subs l) -> Forall means l.
  Proof. induction 1 as [|x l H _ IH]; cbn [flat_map]; [auto|]. rewrite Forall_app. intros [H1 H2]. constructor; auto. Qed.
  Lemma fine_opt o : optP (fun x => Forall fine (subs x) -> means x) o -> Forall fine (opt_list subs o) -> Forall means (opt_list one o).
  Proof. destruct o; cbn; [intros H1 H2; constructor; auto|constructor]. Qed.

  Ltac t_fine := cbn [parts stmt_parts item_parts impl_parts trait_parts arm_parts field_parts mac_parts ev_parts app one] in *; rewrite ?Forall_app, ?Forall_cons_iff, ?Forall_app in *;
    repeat match goal with H : _ /\ _ |- _ => destruct H end; repeat split; auto using Forall_nil;
    try (eapply fine_flat; eassumption); try (eapply fine_list; eassumption); try (eapply fine_opt; eassumption); try constructor; auto.
  Lemma means_all :
    (forall e, Forall fine (subs e) -> means e) /\ (forall s, Forall fine (stmt_subs s) -> Forall means (stmt_parts s)) /\
    (forall i, Forall fine (item_subs i) -> Forall means (item_parts i)) /\ (forall i, Forall fine (impl_subs i) -> Forall means (impl_parts i)) /\
    (forall i, Forall fine (trait_subs i) -> Forall means (trait_parts i)) /\ (forall r, Forall fine (arm_subs r) -> Forall means (arm_parts r)) /\
    (forall x, Forall fine (field_subs x) -> Forall means (field_parts x)) /\ (forall m, Forall fine (mac_subs m) -> Forall means (mac_parts m)) /\
    (forall v, Forall fine (ev_subs v) -> Forall means (ev_parts v)).
  Proof.
    apply syntax_ind; intros;
      try (match goal with H : Forall fine (subs ?e) |- means ?e => cbn [subs] in H; eapply means_node; [reflexivity|exact H|]; clear H; intros; t_fine end; fail);
      try (match goal with H : Forall fine _ |- _ => cbn in H end; t_fine; fail).
    - cbn [subs] in H1. apply Forall_app in H1. destruct H1 as [H1 H2]. inversion_clear H2. cbn [fine] in H3. specialize (H H1). unfold means in *. cbn [bare actual]. unfold replaced in H3.
      destruct (h_consumed h) as [[a sp]|]; [|exact (cg_trans P R HR _ _ _ H H3)]. apply (cg_trans P R HR _ (ETry a (actual orig) sp)); [|exact H3].
      apply (cg_node P R HR); [cbn; rewrite foreign_idem; reflexivity|constructor|]. cbn [parts]. constructor; [exact H|constructor].
    - destruct view as [l|]; [|constructor]. cbn [optP] in H. t_fine.
  Qed.

  (** a congruence relates everything to itself *)
  Definition itself (e : expr) : Prop := R e e.
  Lemma itself_list l : Forall itself l -> Forall2 R l l.
  Proof. induction 1; constructor; assumption. Qed.
  Lemma itself_flat {A} (g : A -> list expr) l : Forall (fun x => Forall itself (g x)) l -> Forall itself (flat_map g l).
  Proof. induction 1; cbn; [constructor|]. apply Forall_app; auto. Qed.
  Lemma itself_opt o : optP itself o -> Forall itself (opt_list one o).
  Proof. destruct o; cbn; [intros; constructor; auto|constructor]. Qed.
  Lemma same_everywhere : (forall p, P p) -> forall e, R e e.
  Proof.
    intros HP. cut ((forall e, itself e) /\ (forall s, Forall itself (stmt_parts s)) /\ (forall i, Forall itself (item_parts i)) /\ (forall i, Forall itself (impl_parts i)) /\
      (forall i, Forall itself (trait_parts i)) /\ (forall r, Forall itself (arm_parts r)) /\ (forall x, Forall itself (field_parts x)) /\ (forall m, Forall itself (mac_parts m)) /\
      (forall v, Forall itself (ev_parts v))); [intros (H & _); exact H|].
    apply syntax_ind; intros;
      try (match goal with |- itself ?e => apply (cg_node P R HR); [reflexivity|apply Forall_forall; intros; apply HP|]; apply itself_list end);
      try (destruct view as [l|]; [|constructor]; cbn [optP] in *);
      cbn [parts stmt_parts item_parts impl_parts trait_parts arm_parts field_parts mac_parts ev_parts app one]; rewrite ?Forall_app, ?Forall_cons_iff, ?Forall_app;
      repeat split; auto using Forall_nil, itself_flat, itself_opt.
  Qed.
End Meaning.

(** * A program without hooks stands as it was written *)
Lemma map_id_in {A} (f : A -> A) l : Forall (fun x => f x = x) l -> map f l = l.
Proof. induction 1; cbn; congruence. Qed.
Lemma opt_id_in {A} (f : A -> A) o : optP (fun x => f x = x) o -> option_map f o = o.
Proof. destruct o; cbn; congruence. Qed.
Lemma written_app a b : written (a ++ b) <-> written a /\ written b.
Proof.
  unfold written, hooks_of. rewrite flat_map_app. split; [|intros [H1 H2]; rewrite H1, H2; reflexivity]. intros H. apply app_eq_nil in H. exact H.
Qed.
Lemma written_flat {A} (f : A -> list expr) (G : A -> A) l : Forall (fun x => written (f x) -> G x = x) l -> written (flat_map f l) -> map G l = l.
Proof. induction 1 as [|x l H _ IH]; cbn [flat_map map]; [reflexivity|]. rewrite written_app. intros [H1 H2]. rewrite H, IH by assumption. reflexivity. Qed.
Lemma written_opt o : optP (fun x => written (subs x) -> actual x = x) o -> written (opt_list subs o) -> option_map actual o = o.
Proof. destruct o; cbn; [intros H H1; rewrite H by exact H1|]; reflexivity. Qed.
Ltac t_written := rewrite ?written_app in *; repeat match goal with H : _ /\ _ |- _ => destruct H end; cbn;
  repeat match goal with
  | H : Forall _ ?b, K : written (flat_map _ ?b) |- context [map _ ?b] => rewrite (written_flat _ _ b H K)
  | H : optP _ ?o, K : written (opt_list _ ?o) |- context [option_map _ ?o] => rewrite (written_opt o H K)
  | H : written ?l -> _ = _, K : written ?l |- _ => rewrite (H K); clear H
  end; try reflexivity.
Lemma actual_written :
  (forall e, written (subs e) -> actual e = e) /\ (forall s, written (stmt_subs s) -> stmt_actual s = s) /\ (forall i, written (item_subs i) -> item_actual i = i) /\
  (forall i, written (impl_subs i) -> impl_actual i = i) /\ (forall i, written (trait_subs i) -> trait_actual i = i) /\ (forall r, written (arm_subs r) -> arm_actual r = r) /\
  (forall x, written (field_subs x) -> field_actual x = x) /\ (forall m, written (mac_subs m) -> mac_actual m = m) /\ (forall v, written (ev_subs v) -> ev_actual v = v).
Proof.
  apply syntax_ind; intros;
    try (match goal with H : written (subs ?e) |- _ => cbn [subs] in H end; t_written; fail);
    try (match goal with H : written _ |- _ => cbn [stmt_subs item_subs impl_subs trait_subs arm_subs field_subs mac_subs ev_subs] in H end; t_written; fail).
  - cbn [subs] in *. rewrite written_app in *. destruct H1 as [_ H1]. discriminate H1.
  - destruct view as [l|]; [|reflexivity]. cbn [optP] in H. cbn [mac_subs] in *. t_written.
Qed.

(** * The theorem *)
Lemma fine_in (P : path -> Prop) (R : expr -> expr -> Prop) l : (forall e, In e l -> Forall P (opened e)) -> (forall h o r, In (EHook h o r) l -> R (replaced h o) r) -> Forall (fine P R) l.
Proof. intros H1 H2. apply Forall_forall. intros e He. destruct e; try exact (H1 _ He). exact (H2 _ _ _ He). Qed.
Lemma Forall2_flip' {A} (R : A -> A -> Prop) l l' : (forall x y, R x y -> R y x) -> Forall2 R l l' -> Forall2 R l' l.
Proof. intros HR. induction 1; constructor; auto. Qed.
Lemma Forall2_chain {A} (R : A -> A -> Prop) : (forall x y z, R x y -> R y z -> R x z) -> forall l l' l'', Forall2 R l l' -> Forall2 R l' l'' -> Forall2 R l l''.
Proof. intros HR l l' l'' H. revert l''. induction H; intros l'' K; inversion_clear K; constructor; eauto. Qed.
Theorem observed P R it out : item_bare out = item_bare it -> source it -> congruence P R -> opens_only P it -> observing R out -> item_alike R it (item_actual out).
Proof.
  intros Hb Hs HR [Ho Hm] Hh.
  assert (M : forall e, In e (item_subs out) -> Forall P (opened e)).
  { destruct macs_bare as (_ & _ & MB & _). assert (EQ : macs (item_subs out) = macs (item_subs it)) by (rewrite <- (MB out), <- (MB it), Hb; reflexivity).
    intros e He. apply Forall_forall. intros p Hp. assert (Hin : In p (macs (item_subs it))) by (rewrite <- EQ; apply in_flat_map; exists e; auto).
    apply in_flat_map in Hin. destruct Hin as (e' & He' & Hp'). exact (proj1 (Forall_forall _ _) (Hm e' He') p Hp'). }
  destruct (means_all P R HR) as (_ & _ & MA & _).
  pose proof (MA out (fine_in P R _ M Hh)) as K1.
  assert (K2 : Forall (means R) (item_parts it)).
  { apply MA. apply fine_in; [exact Hm|]. intros h o r Hin. exfalso. assert (X : In h (hooks_of (item_subs it))) by (apply in_flat_map; exists (EHook h o r); split; [exact Hin|left; reflexivity]).
    rewrite Hs in X. exact X. }
  destruct keeps_bare as (_ & _ & B & _). destruct keeps_actual as (_ & _ & A & _). destruct actual_written as (_ & _ & W & _).
  destruct (B it) as (B1 & B2 & _). destruct (B out) as (B3 & B4 & _). destruct (A out) as (A1 & A2 & _). destruct (A it) as (_ & A3 & _). rewrite (W it Hs) in A3.
  split; [congruence|].
  apply (Forall2_chain R (cg_trans P R HR) _ (item_parts (item_bare it))).
  - apply (Forall2_flip' R _ _ (cg_sym P R HR)). rewrite B2. rewrite A3 at 2. exact (pairs R _ K2).
  - rewrite <- Hb, B4, A2. exact (pairs R _ K1).
Qed.
