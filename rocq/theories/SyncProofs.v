(** Proofs about .github/scripts/sync.rs. *)
From Coq Require Import String Ascii Bool Arith ZArith Lia List.
From Verif Require Import Base Io Sync ScriptSpec.
Import ListNotations.
Open Scope string_scope.
Open Scope list_scope.
Open Scope io_scope.

(** * The values of TOML files *)

Lemma get_in_entry ks : forall v x, get_in ks v = Some x <-> entry v ks x.
Proof.
  induction ks as [|k ks IH]; intros v x; simpl.
  - split; intros H; [injection H as <-; constructor | inversion H; reflexivity].
  - destruct v as [s|t|s]; simpl; try (split; intros H; [discriminate | inversion H]).
    destruct (mget k t) as [w|] eqn:G.
    + rewrite IH. split; intros H; [econstructor; eassumption | inversion H; subst; congruence].
    + split; intros H; [discriminate | inversion H; congruence].
Qed.

Lemma as_str_iff v s : as_str v = Some s <-> v = TStr s.
Proof. destruct v; simpl; split; intros H; congruence. Qed.

Lemma entry_inj v ks x y : entry v ks x -> entry v ks y -> x = y.
Proof. rewrite <- !get_in_entry; congruence. Qed.

Lemma leaf_str s : leaf (TStr s).
Proof. intros t; discriminate. Qed.

Lemma mget_set_at_same k f t : mget k (set_at k f t) = option_map f (mget k t).
Proof.
  induction t as [|[k' w] r IH]; [reflexivity|]; simpl.
  destruct (String.eqb k k') eqn:E; simpl; rewrite E; [reflexivity | exact IH].
Qed.

Lemma mget_set_at_other k k0 f t : k0 <> k -> mget k0 (set_at k f t) = mget k0 t.
Proof.
  intros N; induction t as [|[k' w] r IH]; [reflexivity|]; simpl.
  destruct (String.eqb k k') eqn:E; simpl.
  - apply String.eqb_eq in E; subst k'.
    destruct (String.eqb k0 k) eqn:F; [apply String.eqb_eq in F; contradiction | reflexivity].
  - destruct (String.eqb k0 k'); [reflexivity | exact IH].
Qed.

Lemma set_in_here ks x : forall v y, entry v ks y -> entry (set_in ks x v) ks x.
Proof.
  induction ks as [|k ks IH]; intros v y H; [constructor|].
  inversion H; subst; simpl. econstructor.
  - rewrite mget_set_at_same. match goal with G : mget k _ = _ |- _ => rewrite G end. reflexivity.
  - eapply IH; eassumption.
Qed.

(** entries that are neither below the changed one nor above it stay *)
Lemma set_in_else ks x : forall v ks' y,
  ~ below ks ks' -> ~ below ks' ks -> (entry (set_in ks x v) ks' y <-> entry v ks' y).
Proof.
  induction ks as [|k ks IH]; intros v ks' y N1 N2; [exfalso; apply N1; exists ks'; reflexivity|].
  destruct ks' as [|k' ks']; [exfalso; apply N2; exists (k :: ks); reflexivity|].
  destruct v as [s|t|s]; simpl; try tauto.
  destruct (string_dec k' k) as [->|D].
  - assert (A : ~ below ks ks') by (intros [r ->]; apply N1; exists r; reflexivity).
    assert (B : ~ below ks' ks) by (intros [r ->]; apply N2; exists r; reflexivity).
    split; intros H; inversion H as [|t0 k0 w ks0 x0 G E]; subst.
    + rewrite mget_set_at_same in G. destruct (mget k t) as [w0|] eqn:G0; [|discriminate].
      simpl in G; injection G as <-. econstructor; [exact G0|]. eapply IH; eassumption.
    + econstructor; [rewrite mget_set_at_same, G; reflexivity|]. apply IH; assumption.
  - split; intros H; inversion H as [|t0 k0 w ks0 x0 G E]; subst.
    + rewrite mget_set_at_other in G by assumption. econstructor; eassumption.
    + econstructor; [rewrite mget_set_at_other by assumption; exact G | exact E].
Qed.

(** entries of leaves that are not below the changed one stay *)
Lemma set_in_leaf ks x v z : entry v ks z -> forall ks' y, leaf y ->
  ~ below ks ks' -> (entry (set_in ks x v) ks' y <-> entry v ks' y).
Proof.
  revert v z; induction ks as [|k ks IH]; intros v z E ks' y L N;
    [exfalso; apply N; exists ks'; reflexivity|].
  inversion E as [|t k0 w ks0 x0 G E']; subst.
  destruct ks' as [|k' ks'].
  - split; intros H; inversion H; subst; exfalso; eapply L; reflexivity.
  - cbn [set_in]. destruct (string_dec k' k) as [->|D].
    + assert (A : ~ below ks ks') by (intros [r ->]; apply N; exists r; reflexivity).
      split; intros H; inversion H as [|t0 k0 w0 ks0 x0 G0 E0]; subst.
      * rewrite mget_set_at_same, G in G0. simpl in G0; injection G0 as <-.
        econstructor; [exact G|]. eapply IH; eassumption.
      * assert (w0 = w) by congruence; subst w0.
        econstructor; [rewrite mget_set_at_same, G; reflexivity|]. eapply IH; eassumption.
    + split; intros H; inversion H as [|t0 k0 w0 ks0 x0 G0 E0]; subst.
      * rewrite mget_set_at_other in G0 by assumption. econstructor; eassumption.
      * econstructor; [rewrite mget_set_at_other by assumption; exact G0 | exact E0].
Qed.

(** * Runs *)

Lemma bind_done {A B} (x : io A) (f : A -> io B) w b w' :
  bind x f w = (Done b, w') <-> exists a w1, x w = (Done a, w1) /\ f a w1 = (Done b, w').
Proof.
  unfold bind. destruct (x w) as [[a|t] w1]; split.
  - intros H; exists a, w1; split; [reflexivity | exact H].
  - intros (a' & w1' & E & H). injection E as -> ->. exact H.
  - discriminate.
  - intros (a' & w1' & E & _); discriminate.
Qed.

Lemma ret_done {A} (a b : A) w w' : ret a w = (Done b, w') <-> a = b /\ w' = w.
Proof.
  unfold ret; split; [intros H; injection H as -> ->; split; reflexivity | intros [-> ->]; reflexivity].
Qed.

Lemma stop_done {A} t (b : A) w w' : stop t w = (Done b, w') <-> False.
Proof. unfold stop; split; [discriminate | tauto]. Qed.

Lemma need_done {A} t (o : option A) b w w' : need t o w = (Done b, w') <-> o = Some b /\ w' = w.
Proof.
  destruct o as [a|]; simpl.
  - rewrite ret_done. split; intros [H ->]; split; congruence.
  - rewrite stop_done. split; [tauto | intros [H _]; discriminate].
Qed.

Lemma read_done p b w w' : read p w = (Done b, w') <-> w_files w p = Some b /\ w' = w.
Proof.
  unfold read. destruct (w_files w p) as [t|]; split.
  - intros H; injection H as -> ->; split; reflexivity.
  - intros [H ->]; injection H as ->; reflexivity.
  - discriminate.
  - intros [H _]; discriminate.
Qed.

Lemma write_done X p t b w w' :
  write X p t w = (Done b, w') <->
  x_can_write X p (w_files w) = true /\ w' = World (put p t (w_files w)) (w_done w ++ [Wrote p t]).
Proof.
  unfold write. destruct b. destruct (x_can_write X p (w_files w)); split.
  - intros H; injection H as <-; split; reflexivity.
  - intros [_ ->]; reflexivity.
  - discriminate.
  - intros [H _]; discriminate.
Qed.

Lemma command_done X args b w w' :
  command X args w = (Done b, w') <->
  fst (x_run X args (w_files w)) = Some true
  /\ w' = World (snd (x_run X args (w_files w))) (w_done w ++ [Ran args (w_files w)]).
Proof.
  unfold command. destruct b. destruct (x_run X args (w_files w)) as [[[]|] fs]; simpl; split.
  - intros H; injection H as <-; split; reflexivity.
  - intros [_ ->]; reflexivity.
  - discriminate.
  - intros [H _]; discriminate.
  - discriminate.
  - intros [H _]; discriminate.
Qed.

(** A part that never changes the world. *)
Definition looks {A} (x : io A) : Prop := forall w, snd (x w) = w.

Lemma looks_bind {A B} (x : io A) (f : A -> io B) : looks x -> (forall a, looks (f a)) -> looks (bind x f).
Proof.
  intros H K w. unfold bind. specialize (H w). destruct (x w) as [[a|t] w1]; simpl in H; subst; [apply K | reflexivity].
Qed.
Lemma looks_ret {A} (a : A) : looks (ret a). Proof. intros w; reflexivity. Qed.
Lemma looks_stop {A} t : looks (@stop A t). Proof. intros w; reflexivity. Qed.
Lemma looks_need {A} t (o : option A) : looks (need t o).
Proof. destruct o; [apply looks_ret | apply looks_stop]. Qed.
Lemma looks_read p : looks (read p).
Proof. intros w; unfold read; destruct (w_files w p); reflexivity. Qed.
Lemma looks_each {A} (l : list A) f : (forall x, looks (f x)) -> looks (each l f).
Proof. intros H; induction l; simpl; [apply looks_ret | apply looks_bind; [apply H | intros _; exact IHl]]. Qed.

Ltac looking :=
  repeat first
    [ apply looks_bind; [|intros ?] | apply looks_ret | apply looks_stop | apply looks_need | apply looks_read
    | apply looks_each; intros ?
    | match goal with |- looks (match ?d with _ => _ end) => destruct d end
    | match goal with |- looks (if ?d then _ else _) => destruct d end ].

Section Sync.
  Variable X : outside.
  Variable W : web.

  Lemma published_looks : looks (get_published_version W).
  Proof. unfold get_published_version; looking. Qed.
  Lemma versions_look : looks (sync_sub_crate_versions X true).
  Proof. unfold sync_sub_crate_versions, sync_entry; looking. Qed.
  Lemma file_looks p t : looks (sync_file X true p t).
  Proof. unfold sync_file; looking. Qed.
  Lemma readme_looks lang v : looks (sync_readme X lang true v).
  Proof. unfold sync_readme; looking; apply file_looks. Qed.

  (** ** The published version *)

  Lemma dated_iff c n d : dated W c = Some (n, d) <-> cv_num c = n /\ available W c d.
  Proof.
    unfold dated, available. destruct (cv_yanked c); [split; [discriminate | intros (_ & H & _); discriminate]|].
    destruct (web_date W (cv_created c)) as [d0|]; split.
    - intros H; injection H as <- <-; repeat split.
    - intros (<- & _ & H); injection H as ->; reflexivity.
    - discriminate.
    - intros (_ & _ & H); discriminate.
  Qed.

  Lemma later_snd a b : snd (later a b) = Z.max (snd a) (snd b).
  Proof. unfold later. destruct (Z.gtb_spec (snd a) (snd b)); lia. Qed.

  (** the running maximum: either the start, with nothing as late after it, or an element *)
  Lemma fold_later l : forall x,
    let m := fold_left later l x in
    (m = x /\ (forall y, In y l -> (snd y < snd x)%Z))
    \/ (exists l1 l2, l = l1 ++ m :: l2 /\ (snd x <= snd m)%Z /\ (forall y, In y l1 -> (snd y <= snd m)%Z)
        /\ (forall y, In y l2 -> (snd y < snd m)%Z)).
  Proof.
    induction l as [|a l IH]; intros x m; [left; split; [reflexivity | intros y []]|].
    unfold m; simpl. destruct (IH (later x a)) as [[E H]|(l1 & l2 & E & H0 & H1 & H2)].
    - rewrite E. unfold later in *. destruct (Z.gtb_spec (snd x) (snd a)) as [G|G].
      + left; split; [reflexivity|]. intros y [<-|I]; [lia | apply H, I].
      + right. exists [], l. repeat split; [lia | intros y [] | exact H].
    - right. exists (a :: l1), l2. rewrite later_snd in H0.
      split; [simpl; f_equal; exact E|].
      split; [lia|]. split; [|exact H2]. intros y [<-|I]; [lia | apply H1, I].
  Qed.

  Lemma filter_map_split {A B} (f : A -> option B) l : forall l1 y l2,
    filter_map f l = l1 ++ y :: l2 ->
    exists k1 x k2, l = k1 ++ x :: k2 /\ f x = Some y /\ filter_map f k1 = l1 /\ filter_map f k2 = l2.
  Proof.
    induction l as [|a l IH]; intros l1 y l2; simpl; [intros E; destruct l1; discriminate|].
    destruct (f a) as [b|] eqn:F.
    - destruct l1 as [|b' l1]; simpl; intros E; injection E as <- E.
      + exists [], a, l. repeat split; assumption.
      + destruct (IH _ _ _ E) as (k1 & x & k2 & -> & F1 & F2 & F3).
        exists (a :: k1), x, k2. simpl. rewrite F, F2. repeat split; assumption.
    - intros E. destruct (IH _ _ _ E) as (k1 & x & k2 & -> & F1 & F2 & F3).
      exists (a :: k1), x, k2. simpl. rewrite F, F2. repeat split; assumption.
  Qed.

  Lemma filter_map_app {A B} (f : A -> option B) l l' : filter_map f (l ++ l') = filter_map f l ++ filter_map f l'.
  Proof. induction l as [|a l IH]; simpl; [reflexivity|]. rewrite IH. destruct (f a); reflexivity. Qed.

  Lemma filter_map_in {A B} (f : A -> option B) l x y : In x l -> f x = Some y -> In y (filter_map f l).
  Proof.
    intros I F; induction l as [|a l IH]; [destruct I|]; simpl in *. destruct I as [->|I].
    - rewrite F; left; reflexivity.
    - destruct (f a); [right|]; apply IH, I.
  Qed.

  Lemma in_filter_map {A B} (f : A -> option B) l y : In y (filter_map f l) -> exists x, In x l /\ f x = Some y.
  Proof.
    induction l as [|a l IH]; simpl; [intros []|]. destruct (f a) as [b|] eqn:F.
    - intros [<-|I]; [exists a; split; [left; reflexivity | exact F]|].
      destruct (IH I) as (x & J & G); exists x; split; [right; exact J | exact G].
    - intros I. destruct (IH I) as (x & J & G); exists x; split; [right; exact J | exact G].
  Qed.

  Lemma max_split l m : max_by_date l = Some m ->
    exists l1 l2, l = l1 ++ m :: l2 /\ (forall y, In y l1 -> (snd y <= snd m)%Z) /\ (forall y, In y l2 -> (snd y < snd m)%Z).
  Proof.
    destruct l as [|x l]; simpl; [discriminate|]. intros E; injection E as <-.
    destruct (fold_later l x) as [[E H]|(l1 & l2 & E & H0 & H1 & H2)].
    - rewrite E in *. exists [], l. repeat split; [intros y [] | exact H].
    - exists (x :: l1), l2. split; [simpl; f_equal; exact E|].
      split; [intros y [<-|I]; [exact H0 | apply H1, I] | exact H2].
  Qed.

  (** of a list split around a strict maximum, that element is what [max_by_date] finds *)
  Lemma max_unique l1 m l2 :
    (forall y, In y l1 -> (snd y <= snd m)%Z) -> (forall y, In y l2 -> (snd y < snd m)%Z) ->
    max_by_date (l1 ++ m :: l2) = Some m.
  Proof.
    intros H1 H2.
    assert (A : forall l, (forall y, In y l -> (snd y < snd m)%Z) -> fold_left later l m = m).
    { induction l as [|a l IH]; intros H; [reflexivity|]; simpl. unfold later at 2.
      assert (snd a < snd m)%Z by (apply H; left; reflexivity).
      destruct (Z.gtb_spec (snd m) (snd a)); [|lia]. apply IH; intros y I; apply H; right; exact I. }
    destruct l1 as [|x l1]; simpl; [rewrite A by assumption; reflexivity|].
    assert (B : forall l x, (snd x <= snd m)%Z -> (forall y, In y l -> (snd y <= snd m)%Z) -> fold_left later (l ++ m :: l2) x = m).
    { clear x l1 H1. induction l as [|a l IH]; intros x Hx H; simpl.
      - unfold later at 2. destruct (Z.gtb_spec (snd x) (snd m)); [lia|]. apply A, H2.
      - apply IH; [|intros y I; apply H; right; exact I].
        rewrite later_snd. specialize (H a (or_introl eq_refl)). lia. }
    rewrite B; [reflexivity | apply H1; left; reflexivity | intros y I; apply H1; right; exact I].
  Qed.

  Lemma published_iff w r : get_published_version W w = (Done r, w) <-> newest W r.
  Proof.
    unfold get_published_version. rewrite bind_done. split.
    - intros (vs & w1 & H & K). apply need_done in H as [H ->]. apply bind_done in K as ([n d] & w2 & K & L).
      apply need_done in K as [K ->]. apply ret_done in L as [<- _].
      destruct (max_split _ _ K) as (l1 & l2 & E & H1 & H2).
      destruct (filter_map_split _ _ _ _ _ E) as (k1 & c & k2 & -> & F & <- & <-).
      apply dated_iff in F as [F1 F2].
      exists k1, c, k2, d. split; [exact H|]. split; [exact F1|]. split; [exact F2|]. simpl in *. split.
      + intros c' d' I V. apply (H1 (cv_num c', d')). eapply filter_map_in; [exact I|]. apply dated_iff; split; [reflexivity | exact V].
      + intros c' d' I V. apply (H2 (cv_num c', d')). eapply filter_map_in; [exact I|]. apply dated_iff; split; [reflexivity | exact V].
    - intros (k1 & c & k2 & d & E & <- & V & H1 & H2).
      exists (k1 ++ c :: k2), w. rewrite need_done. split; [split; [exact E | reflexivity]|].
      rewrite bind_done. exists (cv_num c, d), w. rewrite need_done, ret_done. repeat split.
      rewrite filter_map_app. simpl. replace (dated W c) with (Some (cv_num c, d)) by (symmetry; apply dated_iff; split; [reflexivity | exact V]).
      apply max_unique; simpl; intros [n d'] I; simpl; apply in_filter_map in I as (c' & I & F); apply dated_iff in F as [_ F].
      + eapply H1; eassumption.
      + eapply H2; eassumption.
  Qed.

  Lemma shown_iff m v r w :
    match m with Wip => get_published_version W | Publish | AddTag => ret v end w = (Done r, w) <-> shown W m v r.
  Proof. destruct m; simpl; [apply published_iff | |]; rewrite ret_done; split; [intros [-> _] | intros -> | intros [-> _] | intros ->]; auto. Qed.

  Lemma shown_looks m v : looks (match m with Wip => get_published_version W | Publish | AddTag => ret v end).
  Proof. destruct m; [apply published_looks | apply looks_ret | apply looks_ret]. Qed.

  (** ** Checking *)

  Lemma looks_done {A} (x : io A) w a w' : looks x -> x w = (Done a, w') -> w' = w.
  Proof. intros L E. specialize (L w). rewrite E in L. exact L. Qed.

  Lemma entry_check_iff v crate doc w b :
    sync_entry true v crate doc w = (Done b, w) <-> b = doc /\ entry doc ["dependencies"; crate; "version"] (TStr v).
  Proof.
    unfold sync_entry. rewrite bind_done. split.
    - intros (e & w1 & H & K). apply need_done in H as [H ->]. apply bind_done in K as (f & w2 & K & L).
      apply need_done in K as [K ->]. apply as_str_iff in K; subst e.
      destruct (String.eqb v f) eqn:E; [|apply stop_done in L; contradiction].
      apply String.eqb_eq in E; subst f. apply ret_done in L as [<- _].
      split; [reflexivity | apply get_in_entry, H].
    - intros [-> H]. exists (TStr v), w. rewrite need_done, get_in_entry. split; [split; [exact H | reflexivity]|].
      rewrite bind_done. exists v, w. rewrite need_done. split; [split; reflexivity|].
      rewrite String.eqb_refl. reflexivity.
  Qed.

  Lemma workspace_test (tab : smap toml) w b w' :
    match mget "workspace" tab with None => stop TWorkspace | Some _ => ret tt end w = (Done b, w') <->
    mget "workspace" tab <> None /\ w' = w.
  Proof.
    destruct b. destruct (mget "workspace" tab); [rewrite ret_done | rewrite stop_done]; intuition congruence.
  Qed.

  Lemma versions_check_iff w v :
    sync_sub_crate_versions X true w = (Done v, w) <-> versions_agree X (w_files w) v.
  Proof.
    unfold sync_sub_crate_versions, versions_agree, file_entry. split.
    - intros H.
      apply bind_done in H as (t1 & w1 & R1 & H); apply read_done in R1 as [R1 ->].
      apply bind_done in H as (d1 & w1 & T1 & H); apply need_done in T1 as [T1 ->].
      apply bind_done in H as (tab & w1 & A1 & H); apply need_done in A1 as [A1 ->].
      apply bind_done in H as ([] & w1 & Q & H); apply workspace_test in Q as [_ ->].
      apply bind_done in H as (e & w1 & G1 & H); apply need_done in G1 as [G1 ->].
      apply bind_done in H as (v0 & w1 & S1 & H); apply need_done in S1 as [S1 ->]. apply as_str_iff in S1; subst e.
      apply bind_done in H as (t2 & w1 & R2 & H); apply read_done in R2 as [R2 ->].
      apply bind_done in H as (d2 & w1 & T2 & H); apply need_done in T2 as [T2 ->].
      apply bind_done in H as (d3 & w1 & E1 & H).
      assert (w1 = w) by (eapply looks_done; [|exact E1]; unfold sync_entry; looking); subst w1.
      apply entry_check_iff in E1 as [-> E1].
      apply bind_done in H as (d4 & w1 & E2 & H).
      assert (w1 = w) by (eapply looks_done; [|exact E2]; unfold sync_entry; looking); subst w1.
      apply entry_check_iff in E2 as [-> E2].
      apply bind_done in H as ([] & w1 & Q & H). apply ret_done in H as [-> _].
      repeat split; [exists t1, d1 | exists t2, d2 | exists t2, d2]; repeat split; try assumption.
      apply get_in_entry, G1.
    - intros ((t1 & d1 & R1 & T1 & E1) & (t2 & d2 & R2 & T2 & E2) & (t3 & d3 & R3 & T3 & E3)).
      assert (t3 = t2) by congruence; subst t3. assert (d3 = d2) by congruence; subst d3.
      apply bind_done; exists t1, w; split; [apply read_done; split; [exact R1 | reflexivity]|].
      apply bind_done; exists d1, w; split; [apply need_done; split; [exact T1 | reflexivity]|].
      inversion E1 as [|tab k x ks y G E]; subst.
      apply bind_done; exists tab, w; split; [reflexivity|].
      apply bind_done; exists tt, w; split; [apply workspace_test; split; [congruence | reflexivity]|].
      apply bind_done; exists (TStr v), w; split; [apply need_done; split; [apply get_in_entry, E1 | reflexivity]|].
      apply bind_done; exists v, w; split; [reflexivity|].
      apply bind_done; exists t2, w; split; [apply read_done; split; [exact R2 | reflexivity]|].
      apply bind_done; exists d2, w; split; [apply need_done; split; [exact T2 | reflexivity]|].
      apply bind_done; exists d2, w; split; [apply entry_check_iff; split; [reflexivity | exact E2]|].
      apply bind_done; exists d2, w; split; [apply entry_check_iff; split; [reflexivity | exact E3]|].
      reflexivity.
  Qed.

  Lemma file_check_iff p t w : sync_file X true p t w = (Done tt, w) <-> w_files w p = Some t.
  Proof.
    unfold sync_file. rewrite bind_done. split.
    - intros (e & w1 & R & H). apply read_done in R as [R ->].
      destruct (String.eqb e t) eqn:E; [|apply stop_done in H; contradiction].
      apply String.eqb_eq in E; subst; exact R.
    - intros R. exists t, w. rewrite read_done. split; [split; [exact R | reflexivity]|].
      rewrite String.eqb_refl; reflexivity.
  Qed.

  (** what a run over one language reads *)
  Definition lang_texts (fs : files) (v lang c gh sub : string) : Prop :=
    exists t g s,
      fs ("./docs" ++ lang ++ "/_readme_root.md.template")%string = Some t /\ x_render X t [("version", v)] = Some c
      /\ fs "./docs/_readme_github.md.template" = Some g /\ x_render X g [("common", c)] = Some gh
      /\ fs "./docs/_readme_sub_crates.md.template" = Some s /\ x_render X s [("common", c)] = Some sub.

  Lemma readme_check_iff lang v w :
    sync_readme X lang true v w = (Done tt, w) <->
    exists c gh sub, lang_texts (w_files w) v lang c gh sub
      /\ w_files w ("./docs" ++ lang ++ "/README.md")%string = Some gh
      /\ w_files w ("./hooq/docs" ++ lang ++ "/README.md")%string = Some c
      /\ w_files w ("./hooq-macros/docs" ++ lang ++ "/README.md")%string = Some sub
      /\ w_files w ("./hooq-helpers/docs" ++ lang ++ "/README.md")%string = Some sub.
  Proof.
    unfold sync_readme, lang_texts. split.
    - intros H.
      apply bind_done in H as (t & w1 & R1 & H); apply read_done in R1 as [R1 ->].
      apply bind_done in H as (c & w1 & C & H); apply need_done in C as [C ->].
      apply bind_done in H as (g & w1 & R2 & H); apply read_done in R2 as [R2 ->].
      apply bind_done in H as (gh & w1 & G & H); apply need_done in G as [G ->].
      apply bind_done in H as ([] & w1 & F1 & H).
      assert (w1 = w) by (eapply looks_done; [apply file_looks | exact F1]); subst w1. apply file_check_iff in F1.
      apply bind_done in H as ([] & w1 & F2 & H).
      assert (w1 = w) by (eapply looks_done; [apply file_looks | exact F2]); subst w1. apply file_check_iff in F2.
      apply bind_done in H as (s & w1 & R3 & H); apply read_done in R3 as [R3 ->].
      apply bind_done in H as (sub & w1 & S & H); apply need_done in S as [S ->].
      cbn [each] in H.
      apply bind_done in H as ([] & w1 & F3 & H).
      assert (w1 = w) by (eapply looks_done; [apply file_looks | exact F3]); subst w1. apply file_check_iff in F3.
      apply bind_done in H as ([] & w1 & F4 & H).
      assert (w1 = w) by (eapply looks_done; [apply file_looks | exact F4]); subst w1. apply file_check_iff in F4.
      exists c, gh, sub. repeat split; try assumption. exists t, g, s. repeat split; assumption.
    - intros (c & gh & sub & (t & g & s & R1 & C & R2 & G & R3 & S) & F1 & F2 & F3 & F4).
      apply bind_done; exists t, w; split; [apply read_done; split; [exact R1 | reflexivity]|].
      apply bind_done; exists c, w; split; [apply need_done; split; [exact C | reflexivity]|].
      apply bind_done; exists g, w; split; [apply read_done; split; [exact R2 | reflexivity]|].
      apply bind_done; exists gh, w; split; [apply need_done; split; [exact G | reflexivity]|].
      apply bind_done; exists tt, w; split; [apply file_check_iff, F1|].
      apply bind_done; exists tt, w; split; [apply file_check_iff, F2|].
      apply bind_done; exists s, w; split; [apply read_done; split; [exact R3 | reflexivity]|].
      apply bind_done; exists sub, w; split; [apply need_done; split; [exact S | reflexivity]|].
      cbn [each].
      apply bind_done; exists tt, w; split; [apply file_check_iff, F3|].
      apply bind_done; exists tt, w; split; [apply file_check_iff, F4|].
      reflexivity.
  Qed.

  (** the specification of one language in the same form *)
  Lemma readme_text fs v lang p t c gh sub :
    lang_texts fs v lang c gh sub -> readme X fs v lang p t ->
    (p = "./docs" ++ lang ++ "/README.md" -> t = gh)%string
    /\ (p = "./hooq/docs" ++ lang ++ "/README.md" -> t = c)%string
    /\ (p = "./hooq-macros/docs" ++ lang ++ "/README.md" -> t = sub)%string
    /\ (p = "./hooq-helpers/docs" ++ lang ++ "/README.md" -> t = sub)%string.
  Proof.
    intros (t0 & g & s & R1 & C & R2 & G & R3 & S) H.
    destruct H as [t1 c1 g1 r1 A B D E | t1 c1 A B | t1 c1 g1 r1 cr A B D E I].
    1, 2: repeat split; intros Q; try (simpl in Q; discriminate); congruence.
    simpl in I; destruct I as [<-|[<-|[]]]; repeat split; intros Q; try (simpl in Q; discriminate); congruence.
  Qed.

  Lemma lang_readmes fs v lang c gh sub : lang_texts fs v lang c gh sub ->
    readme X fs v lang ("./docs" ++ lang ++ "/README.md") gh
    /\ readme X fs v lang ("./hooq/docs" ++ lang ++ "/README.md") c
    /\ readme X fs v lang ("./hooq-macros/docs" ++ lang ++ "/README.md") sub
    /\ readme X fs v lang ("./hooq-helpers/docs" ++ lang ++ "/README.md") sub.
  Proof.
    intros (t0 & g & s & R1 & C & R2 & G & R3 & S). split; [|split; [|split]].
    - eapply readme_github; eassumption.
    - eapply readme_hooq; eassumption.
    - apply (readme_sub X fs v lang t0 c s sub "hooq-macros"); [..| left; reflexivity]; assumption.
    - apply (readme_sub X fs v lang t0 c s sub "hooq-helpers"); [..| right; left; reflexivity]; assumption.
  Qed.

  Lemma lang_spec fs v lang :
    (forall p, In p (readmes lang) -> exists t, readme X fs v lang p t /\ fs p = Some t) <->
    exists c gh sub, lang_texts fs v lang c gh sub
      /\ fs ("./docs" ++ lang ++ "/README.md")%string = Some gh
      /\ fs ("./hooq/docs" ++ lang ++ "/README.md")%string = Some c
      /\ fs ("./hooq-macros/docs" ++ lang ++ "/README.md")%string = Some sub
      /\ fs ("./hooq-helpers/docs" ++ lang ++ "/README.md")%string = Some sub.
  Proof.
    split.
    - intros H.
      destruct (H _ (or_introl eq_refl)) as (gh & P1 & F1).
      destruct (H _ (or_intror (or_introl eq_refl))) as (c & P2 & F2).
      destruct (H _ (or_intror (or_intror (or_introl eq_refl)))) as (sub & P3 & F3).
      destruct (H _ (or_intror (or_intror (or_intror (or_introl eq_refl))))) as (sub' & P4 & F4).
      assert (L : lang_texts fs v lang c gh sub).
      { inversion P1 as [t1 c1 g1 r1 A1 B1 D1 E1 Q1 | t1 c1 A1 B1 Q1 | t1 c1 g1 r1 cr A1 B1 D1 E1 I1 Q1]; subst;
          try (simpl in Q1; discriminate);
          [|simpl in I1; destruct I1 as [<-|[<-|[]]]; simpl in Q1; discriminate].
        inversion P3 as [t3 c3 g3 r3 A3 B3 D3 E3 Q3 | t3 c3 A3 B3 Q3 | t3 c3 g3 r3 cr A3 B3 D3 E3 I3 Q3]; subst;
          try (simpl in Q3; discriminate).
        inversion P2 as [t2 c2 g2 r2 A2 B2 D2 E2 Q2 | t2 c2 A2 B2 Q2 | t2 c2 g2 r2 cr2 A2 B2 D2 E2 I2 Q2]; subst;
          try (simpl in Q2; discriminate);
          [|simpl in I2; destruct I2 as [<-|[<-|[]]]; simpl in Q2; discriminate].
        exists t1, g1, g3. assert (t3 = t1) by congruence. assert (t2 = t1) by congruence. subst.
        assert (c1 = c) by congruence. assert (c3 = c) by congruence. subst. repeat split; assumption. }
      destruct (readme_text _ _ _ _ _ _ _ _ L P4) as (_ & _ & _ & Q). rewrite (Q eq_refl) in F4.
      exists c, gh, sub. repeat split; assumption.
    - intros (c & gh & sub & L & F1 & F2 & F3 & F4) p I. destruct (lang_readmes _ _ _ _ _ _ L) as (P1 & P2 & P3 & P4).
      destruct I as [<-|[<-|[<-|[<-|[]]]]]; eexists; split; eassumption.
  Qed.

  Lemma check_sort w : cargo_sort X true w = command X sort_check w.
  Proof. reflexivity. Qed.

  Theorem check_iff m w : tools X ->
    (fst (sync_main X W true m w) = Done tt <-> in_step X W m (w_files w)).
  Proof.
    intros T. set (w1 := World (w_files w) (w_done w ++ [Ran sort_check (w_files w)])).
    assert (A : fst (sync_main X W true m w) = Done tt <-> exists w', sync_main X W true m w = (Done tt, w')).
    { destruct (sync_main X W true m w) as [o w']; simpl; split; [intros ->; exists w'; reflexivity | intros [w0 E]; congruence]. }
    rewrite A; clear A. unfold sync_main, in_step. split.
    - intros [w' H].
      apply bind_done in H as (v & w2 & V & H).
      assert (w2 = w) by (eapply looks_done; [apply versions_look | exact V]); subst w2. apply versions_check_iff in V.
      apply bind_done in H as (r & w2 & R & H).
      assert (w2 = w) by (eapply looks_done; [apply shown_looks | exact R]); subst w2. apply shown_iff in R.
      apply bind_done in H as ([] & w2 & S & H). rewrite check_sort in S. apply command_done in S as [S ->].
      rewrite (t_check_looks X T) in H. fold w1 in H.
      apply bind_done in H as ([] & w2 & E & H). cbn [each] in E.
      apply bind_done in E as ([] & w3 & E1 & E).
      assert (w3 = w1) by (eapply looks_done; [apply readme_looks | exact E1]); subst w3. apply readme_check_iff in E1.
      apply bind_done in E as ([] & w3 & E2 & E).
      assert (w3 = w1) by (eapply looks_done; [apply readme_looks | exact E2]); subst w3. apply readme_check_iff in E2.
      exists v, r. split; [exact V|]. split; [exact R|]. split; [exact S|].
      intros lang p [<-|[<-|[]]]; revert p; apply lang_spec; assumption.
    - intros (v & r & V & R & S & C). exists w1.
      apply bind_done; exists v, w; split; [apply versions_check_iff, V|].
      apply bind_done; exists r, w; split; [apply shown_iff, R|].
      apply bind_done; exists tt, w1; split; [rewrite check_sort; apply command_done; split; [exact S | rewrite (t_check_looks X T); reflexivity]|].
      apply bind_done; exists tt, w1; split.
      + cbn [each].
        apply bind_done; exists tt, w1; split; [apply readme_check_iff, lang_spec; intros p I; apply C; [left; reflexivity | exact I]|].
        apply bind_done; exists tt, w1; split; [apply readme_check_iff, lang_spec; intros p I; apply C; [right; left; reflexivity | exact I]|].
        reflexivity.
      + destruct m; reflexivity.
  Qed.

  (** a run with [--check] changes nothing *)
  Definition at_most_checks {A} (x : io A) : Prop := forall w,
    w_files (snd (x w)) = w_files w
    /\ (w_done (snd (x w)) = w_done w \/ w_done (snd (x w)) = w_done w ++ [Ran sort_check (w_files w)]).

  Lemma checks_after {A B} (x : io A) (f : A -> io B) :
    looks x -> (forall a, at_most_checks (f a)) -> at_most_checks (bind x f).
  Proof.
    intros L H w. unfold bind. specialize (L w). destruct (x w) as [[a|t] w0]; simpl in L; subst w0;
      [apply H | split; [reflexivity | left; reflexivity]].
  Qed.

  Lemma check_then {B} (f : unit -> io B) : tools X -> (forall a, looks (f a)) -> at_most_checks (bind (cargo_sort X true) f).
  Proof.
    intros T H w. unfold bind. rewrite check_sort. unfold command.
    pose proof (t_check_looks X T (w_files w)) as L.
    destruct (x_run X sort_check (w_files w)) as [[[]|] fs]; simpl in L; subst fs; try rewrite H; simpl;
      split; try reflexivity; right; reflexivity.
  Qed.

  Theorem check_looks m : tools X -> at_most_checks (sync_main X W true m).
  Proof.
    intros T. unfold sync_main. apply checks_after; [apply versions_look|]. intros v.
    apply checks_after; [apply shown_looks|]. intros r.
    apply check_then; [exact T|]. intros _. apply looks_bind.
    - apply looks_each; intros lang; apply readme_looks.
    - intros _; destruct m; apply looks_ret.
  Qed.

  (** ** Writing *)

  Lemma file_write_done p t w b w' :
    sync_file X false p t w = (Done b, w') -> w' = World (put p t (w_files w)) (w_done w ++ [Wrote p t]).
  Proof. unfold sync_file. intros H. apply write_done in H as [_ H]. exact H. Qed.

  (** the value of hooq/Cargo.toml that a run writes *)
  Definition updated (v : string) (doc : toml) : toml :=
    set_in helpers_version (TStr v) (set_in macros_version (TStr v) doc).

  Lemma versions_write_done w v w' :
    sync_sub_crate_versions X false w = (Done v, w') ->
    exists text doc out,
      file_entry X (w_files w) "./Cargo.toml" ["workspace"; "package"; "version"] (TStr v)
      /\ w_files w "./hooq/Cargo.toml" = Some text /\ x_toml X text = Some doc
      /\ (exists y, entry doc macros_version y) /\ (exists y, entry doc helpers_version y)
      /\ x_toml_text X (updated v doc) = Some out
      /\ w' = World (put "./hooq/Cargo.toml" out (w_files w)) (w_done w ++ [Wrote "./hooq/Cargo.toml" out]).
  Proof.
    unfold sync_sub_crate_versions. intros H.
    apply bind_done in H as (t1 & w1 & R1 & H); apply read_done in R1 as [R1 ->].
    apply bind_done in H as (d1 & w1 & T1 & H); apply need_done in T1 as [T1 ->].
    apply bind_done in H as (tab & w1 & A1 & H); apply need_done in A1 as [A1 ->].
    apply bind_done in H as ([] & w1 & Q & H); apply workspace_test in Q as [_ ->].
    apply bind_done in H as (e & w1 & G1 & H); apply need_done in G1 as [G1 ->].
    apply bind_done in H as (v0 & w1 & S1 & H); apply need_done in S1 as [S1 ->]. apply as_str_iff in S1; subst e.
    apply bind_done in H as (t2 & w1 & R2 & H); apply read_done in R2 as [R2 ->].
    apply bind_done in H as (d2 & w1 & T2 & H); apply need_done in T2 as [T2 ->].
    apply bind_done in H as (d3 & w1 & E1 & H). unfold sync_entry in E1.
    apply bind_done in E1 as (y1 & w2 & E1 & Q); apply need_done in E1 as [E1 ->]; apply ret_done in Q as [<- ->].
    apply bind_done in H as (d4 & w1 & E2 & H). unfold sync_entry in E2.
    apply bind_done in E2 as (y2 & w2 & E2 & Q); apply need_done in E2 as [E2 ->]; apply ret_done in Q as [<- ->].
    apply bind_done in H as ([] & w1 & P & H). apply ret_done in H as [<- ->].
    apply bind_done in P as (out & w2 & P & Q). apply need_done in P as [P ->]. apply write_done in Q as [_ ->].
    exists t2, d2, out. apply get_in_entry in E1, E2.
    split; [exists t1, d1; repeat split; try assumption; apply get_in_entry, G1|].
    repeat split; try assumption; [exists y1; exact E1|].
    fold helpers_version in E2. fold macros_version in E2.
    apply set_in_else in E2; [exists y2; exact E2 | intros [r Q]; discriminate | intros [r Q]; discriminate].
  Qed.

  Lemma updated_macros v doc y : entry doc macros_version y -> entry (updated v doc) macros_version (TStr v).
  Proof.
    intros H. unfold updated. apply set_in_else; [intros [r Q]; discriminate | intros [r Q]; discriminate|].
    eapply set_in_here, H.
  Qed.
  Lemma updated_helpers v doc y : entry doc helpers_version y -> entry (updated v doc) helpers_version (TStr v).
  Proof.
    intros H. unfold updated. apply (set_in_here _ _ _ y).
    apply set_in_else; [intros [r Q]; discriminate | intros [r Q]; discriminate | exact H].
  Qed.

  Fixpoint last_char (d : ascii) (s : string) : ascii :=
    match s with EmptyString => d | String c r => last_char c r end.
  Lemma last_char_cargo d s : last_char d (s ++ "Cargo.toml") = "l"%char.
  Proof. revert d; induction s as [|c s IH]; intros d; [reflexivity | apply IH]. Qed.

  Definition lang_puts (lang c gh sub : string) (fs : files) : files :=
    put ("./hooq-helpers/docs" ++ lang ++ "/README.md") sub
      (put ("./hooq-macros/docs" ++ lang ++ "/README.md") sub
        (put ("./hooq/docs" ++ lang ++ "/README.md") c
          (put ("./docs" ++ lang ++ "/README.md") gh fs))).

  Lemma readme_write_done lang v w b w' : In lang languages ->
    sync_readme X lang false v w = (Done b, w') ->
    exists c gh sub, lang_texts (w_files w) v lang c gh sub /\ w_files w' = lang_puts lang c gh sub (w_files w).
  Proof.
    intros L H. unfold sync_readme in H.
    apply bind_done in H as (t & w1 & R1 & H); apply read_done in R1 as [R1 ->].
    apply bind_done in H as (c & w1 & C & H); apply need_done in C as [C ->].
    apply bind_done in H as (g & w1 & R2 & H); apply read_done in R2 as [R2 ->].
    apply bind_done in H as (gh & w1 & G & H); apply need_done in G as [G ->].
    apply bind_done in H as ([] & w1 & F1 & H). apply file_write_done in F1; subst w1.
    apply bind_done in H as ([] & w1 & F2 & H). apply file_write_done in F2; subst w1.
    apply bind_done in H as (s & w1 & R3 & H); apply read_done in R3 as [R3 ->].
    apply bind_done in H as (sub & w1 & S & H); apply need_done in S as [S ->].
    cbn [each] in H.
    apply bind_done in H as ([] & w1 & F3 & H). apply file_write_done in F3; subst w1.
    apply bind_done in H as ([] & w1 & F4 & H). apply file_write_done in F4; subst w1.
    apply ret_done in H as [_ ->]. cbn [w_files] in *.
    exists c, gh, sub. split; [|reflexivity].
    exists t, g, s. repeat split; try assumption.
    destruct L as [<-|[<-|[]]]; exact R3.
  Qed.

  Lemma file_entry_eq fs fs' p ks x : fs' p = fs p -> file_entry X fs p ks x -> file_entry X fs' p ks x.
  Proof. intros E (t & d & H & K). exists t, d. split; [congruence | exact K]. Qed.

  (** the state that is reached before the tag *)
  Lemma write_in_step m v r w w1 w2 w3 w4 : tools X ->
    sync_sub_crate_versions X false w = (Done v, w1) ->
    match m with Wip => get_published_version W | Publish | AddTag => ret v end w1 = (Done r, w2) ->
    cargo_sort X false w2 = (Done tt, w3) ->
    each [""; "/ja"] (fun lang => sync_readme X lang false r) w3 = (Done tt, w4) ->
    file_entry X (w_files w) "./Cargo.toml" ["workspace"; "package"; "version"] (TStr v)
    /\ versions_agree X (w_files w4) v /\ shown W m v r /\ sorted X (w_files w4) /\ readmes_current X (w_files w4) r.
  Proof.
    intros T V R S E.
    apply versions_write_done in V as (text & doc & out & V0 & V1 & V2 & (y1 & V3) & (y2 & V4) & V5 & ->).
    assert (w2 = World (put "./hooq/Cargo.toml" out (w_files w)) (w_done w ++ [Wrote "./hooq/Cargo.toml" out]))
      by (eapply looks_done; [apply shown_looks | exact R]). subst w2.
    apply shown_iff in R. cbn [w_files w_done] in *.
    change (cargo_sort X false) with (command X sort_all) in S. apply command_done in S as [S ->]. cbn [w_files] in *.
    set (fs1 := put "./hooq/Cargo.toml" out (w_files w)) in *.
    set (fs2 := snd (x_run X sort_all fs1)) in *.
    cbn [each] in E.
    apply bind_done in E as ([] & w5 & E1 & E). apply bind_done in E as ([] & w6 & E2 & E). apply ret_done in E as [_ ->].
    apply readme_write_done in E1 as (c1 & gh1 & sub1 & L1 & F1); [|left; reflexivity]. cbn [w_files] in L1, F1.
    apply readme_write_done in E2 as (c2 & gh2 & sub2 & L2 & F2); [|right; left; reflexivity].
    rewrite F1 in L2, F2. 
    destruct (t_toml_back X T _ _ V5) as (doc' & B1 & B2).
    assert (K0 : file_entry X fs1 "./Cargo.toml" ["workspace"; "package"; "version"] (TStr v))
      by (eapply file_entry_eq; [|exact V0]; reflexivity).
    assert (K1 : file_entry X fs1 "./hooq/Cargo.toml" macros_version (TStr v)).
    { exists out, doc'. split; [reflexivity|]. split; [exact B1|]. apply B2; [apply leaf_str|]. eapply updated_macros, V3. }
    assert (K2 : file_entry X fs1 "./hooq/Cargo.toml" helpers_version (TStr v)).
    { exists out, doc'. split; [reflexivity|]. split; [exact B1|]. apply B2; [apply leaf_str|]. eapply updated_helpers, V4. }
    apply (t_sort_keeps X T) in K0, K1, K2. fold fs2 in K0, K1, K2.
    split; [exact V0|]. rewrite F2. split; [|split; [exact R|split]].
    - split; [|split].
      + eapply file_entry_eq; [|exact K0]; reflexivity.
      + eapply file_entry_eq; [|exact K1]; reflexivity.
      + eapply file_entry_eq; [|exact K2]; reflexivity.
    - eapply (t_check_reads X T); [|apply (t_sort_sorts X T), S]. fold fs2.
      intros p (dir & ->). unfold lang_puts, put.
      repeat match goal with
      | |- context [String.eqb (dir ++ "Cargo.toml") ?q] =>
          let B := fresh in
          destruct (String.eqb (dir ++ "Cargo.toml") q) eqn:B;
          [apply String.eqb_eq, (f_equal (last_char zero)) in B; rewrite last_char_cargo in B; discriminate B|]
      end. reflexivity.
    - intros lang p [<-|[<-|[]]]; revert p; apply lang_spec.
      + exists c1, gh1, sub1. split; [|repeat split].
        destruct L1 as (t & g & s & Q). exists t, g, s. exact Q.
      + exists c2, gh2, sub2. split; [|repeat split].
        destruct L2 as (t & g & s & Q). exists t, g, s. exact Q.
  Qed.

  Theorem sync_in_step m w w' : tools X -> sync_main X W false m w = (Done tt, w') ->
    in_step X W m (w_files w')
    /\ exists v, file_entry X (w_files w) "./Cargo.toml" ["workspace"; "package"; "version"] (TStr v)
                 /\ versions_agree X (w_files w') v.
  Proof.
    intros T H. unfold sync_main in H.
    apply bind_done in H as (v & w1 & V & H). apply bind_done in H as (r & w2 & R & H).
    apply bind_done in H as ([] & w3 & S & H). apply bind_done in H as ([] & w4 & E & H).
    assert (Q : w_files w' = w_files w4).
    { destruct m; [apply ret_done in H as [_ ->]; reflexivity | apply ret_done in H as [_ ->]; reflexivity |].
      apply command_done in H as [_ ->]. apply (t_tag X T). }
    rewrite Q. destruct (write_in_step m v r w w1 w2 w3 w4 T V R S E) as (K0 & K1 & K2 & K3 & K4).
    split; [exists v, r; repeat split; assumption || apply K1 | exists v; split; assumption].
  Qed.

  (** ** What is done to the world *)

  Definition adds {A} (P : event -> Prop) (x : io A) (w : world) : Prop :=
    exists evs, w_done (snd (x w)) = w_done w ++ evs /\ Forall P evs.

  Lemma adds_bind {A B} P (x : io A) (f : A -> io B) w :
    adds P x w -> (forall a w1, x w = (Done a, w1) -> adds P (f a) w1) -> adds P (bind x f) w.
  Proof.
    intros (e1 & H1 & F1) K. unfold adds, bind. destruct (x w) as [[a|t] w1] eqn:E.
    - destruct (K a w1 eq_refl) as (e2 & H2 & F2). exists (e1 ++ e2). simpl in H1.
      rewrite H2, H1, app_assoc. split; [reflexivity | apply Forall_app; split; assumption].
    - exists e1. split; assumption.
  Qed.

  Lemma adds_looks {A} P (x : io A) w : looks x -> adds P x w.
  Proof. intros L. exists []. rewrite L, app_nil_r. split; [reflexivity | constructor]. Qed.

  Lemma adds_write (P : event -> Prop) p t w : P (Wrote p t) -> adds P (write X p t) w.
  Proof.
    intros H. unfold adds, write. destruct (x_can_write X p (w_files w)); simpl.
    - exists [Wrote p t]. split; [reflexivity | constructor; [exact H | constructor]].
    - exists []. rewrite app_nil_r. split; [reflexivity | constructor].
  Qed.

  Lemma adds_command (P : event -> Prop) args w : P (Ran args (w_files w)) -> adds P (command X args) w.
  Proof.
    intros H. exists [Ran args (w_files w)]. unfold command.
    destruct (x_run X args (w_files w)) as [[[]|] fs]; simpl; (split; [reflexivity | constructor; [exact H | constructor]]).
  Qed.

  Lemma adds_each {A} (P : event -> Prop) (l : list A) (f : A -> io unit) w :
    (forall x w, In x l -> adds P (f x) w) -> adds P (each l f) w.
  Proof.
    revert w; induction l as [|a l IH]; intros w H; simpl; [apply adds_looks, looks_ret|].
    apply adds_bind; [apply H; left; reflexivity|]. intros _ w1 _. apply IH. intros x w2 I; apply H; right; exact I.
  Qed.

  (** the new text of hooq/Cargo.toml: the version of the workspace in two entries, the rest as before *)
  Definition good_manifest (fs : files) (out : string) : Prop :=
    exists text doc v doc',
      fs "./hooq/Cargo.toml" = Some text /\ x_toml X text = Some doc
      /\ file_entry X fs "./Cargo.toml" ["workspace"; "package"; "version"] (TStr v)
      /\ x_toml_text X doc' = Some out
      /\ entry doc' macros_version (TStr v) /\ entry doc' helpers_version (TStr v)
      /\ (forall ks x, leaf x -> ~ below macros_version ks -> ~ below helpers_version ks -> (entry doc' ks x <-> entry doc ks x)).

  Definition allowed (m : mode) (fs : files) (e : event) : Prop :=
    match e with
    | Wrote p t => (p = "./hooq/Cargo.toml" /\ good_manifest fs t) \/ (exists lang, In lang languages /\ In p (readmes lang))
    | Ran args before =>
        args = sort_all
        \/ (exists v, args = ["git"; "tag"; "v" ++ v]%string /\ m = AddTag
              /\ file_entry X fs "./Cargo.toml" ["workspace"; "package"; "version"] (TStr v)
              /\ versions_agree X before v /\ in_step X W AddTag before)
    | _ => False
    end.

  Lemma versions_adds m w : adds (allowed m (w_files w)) (sync_sub_crate_versions X false) w.
  Proof.
    unfold sync_sub_crate_versions.
    apply adds_bind; [apply adds_looks, looks_read|]. intros t1 w1 R1; apply read_done in R1 as [R1 ->].
    apply adds_bind; [apply adds_looks, looks_need|]. intros d1 w1 T1; apply need_done in T1 as [T1 ->].
    apply adds_bind; [apply adds_looks, looks_need|]. intros tab w1 A1; apply need_done in A1 as [A1 ->].
    apply adds_bind; [apply adds_looks; looking|]. intros [] w1 Q; apply workspace_test in Q as [_ ->].
    apply adds_bind; [apply adds_looks, looks_need|]. intros e w1 G1; apply need_done in G1 as [G1 ->].
    apply adds_bind; [apply adds_looks, looks_need|]. intros v w1 S1; apply need_done in S1 as [S1 ->]. apply as_str_iff in S1; subst e.
    apply adds_bind; [apply adds_looks, looks_read|]. intros t2 w1 R2; apply read_done in R2 as [R2 ->].
    apply adds_bind; [apply adds_looks, looks_need|]. intros d2 w1 T2; apply need_done in T2 as [T2 ->].
    apply adds_bind; [apply adds_looks; unfold sync_entry; looking|]. intros d3 w1 E1. unfold sync_entry in E1.
    apply bind_done in E1 as (y1 & w2 & E1 & Q); apply need_done in E1 as [E1 ->]; apply ret_done in Q as [<- ->].
    apply adds_bind; [apply adds_looks; unfold sync_entry; looking|]. intros d4 w1 E2. unfold sync_entry in E2.
    apply bind_done in E2 as (y2 & w2 & E2 & Q); apply need_done in E2 as [E2 ->]; apply ret_done in Q as [<- ->].
    apply adds_bind; [|intros [] w1 _; apply adds_looks, looks_ret].
    apply adds_bind; [apply adds_looks, looks_need|]. intros out w1 P; apply need_done in P as [P ->].
    apply adds_write. left. split; [reflexivity|].
    apply get_in_entry in E1, E2. fold macros_version helpers_version in *.
    assert (E3 : entry d2 helpers_version y2) by (apply set_in_else in E2; [exact E2 | intros [r Q]; discriminate | intros [r Q]; discriminate]).
    exists t2, d2, v, (updated v d2). repeat split; try assumption.
    - exists t1, d1. repeat split; try assumption. apply get_in_entry, G1.
    - eapply updated_macros, E1.
    - eapply updated_helpers, E3.
    - intros K. unfold updated in K. apply (set_in_leaf _ _ _ _ E2) in K; [|assumption..].
      apply (set_in_leaf _ _ _ _ E1) in K; assumption.
    - intros K. unfold updated. apply (set_in_leaf _ _ _ _ E2); [assumption..|].
      apply (set_in_leaf _ _ _ _ E1); assumption.
  Qed.

  Lemma file_adds m fs p t w lang : In lang languages -> In p (readmes lang) -> adds (allowed m fs) (sync_file X false p t) w.
  Proof. intros L I. apply adds_write. right. exists lang. split; assumption. Qed.

  Lemma readme_adds m fs lang v w : In lang languages -> adds (allowed m fs) (sync_readme X lang false v) w.
  Proof.
    intros L. unfold sync_readme.
    repeat (apply adds_bind; [first [apply adds_looks, looks_read | apply adds_looks, looks_need |
      eapply file_adds; [exact L | simpl; tauto]]|]; intros ? ? _).
    apply adds_looks, looks_ret.
  Qed.

  Theorem sync_adds m w : tools X -> adds (allowed m (w_files w)) (sync_main X W false m) w.
  Proof.
    intros T. unfold sync_main.
    apply adds_bind; [apply versions_adds|]. intros v w1 V.
    apply adds_bind; [apply adds_looks, shown_looks|]. intros r w2 R.
    apply adds_bind; [apply adds_command; left; reflexivity|]. intros [] w3 S.
    apply adds_bind; [apply adds_each; intros lang w4 L; apply readme_adds, L|]. intros [] w4 E.
    destruct (write_in_step m v r w w1 w2 w3 w4 T V R S E) as (K0 & K1 & K2 & K3 & K4).
    destruct m; try (apply adds_looks, looks_ret).
    apply adds_command. right. exists v. repeat split; try assumption; try apply K1.
    exists v, r. repeat split; try assumption; apply K1.
  Qed.
End Sync.
