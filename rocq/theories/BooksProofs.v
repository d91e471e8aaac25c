(** Proofs about docs/generate_mdbooks.rs and mdbook-source-code/new_project.rs. *)
From Coq Require Import String Ascii Bool Arith Lia List.
From Verif Require Import Base Io Books NewProject ScriptSpec SyncProofs.
Import ListNotations.
Open Scope string_scope.
Open Scope list_scope.
Open Scope io_scope.

Lemma snoc_split {A} (l : list A) x pre y post : l ++ [x] = pre ++ y :: post ->
  (post = [] /\ y = x /\ pre = l) \/ (exists post', post = post' ++ [x] /\ l = pre ++ y :: post').
Proof.
  destruct post as [|p post] using rev_ind; intros E.
  - left. apply app_inj_tail in E as [-> ->]. repeat split.
  - right. exists post. rewrite app_comm_cons, app_assoc in E. apply app_inj_tail in E as [-> ->]. split; reflexivity.
Qed.

Section Books.
  Variable X : outside.
  Variable P : place.
  Variable latest : string.
  Variable versions : list string.

  (** building books leaves their sources alone *)
  Definition mdbook_only_builds : Prop := forall args fs lang,
    snd (x_run X ("mdbook" :: args) fs) (book_toml lang) = fs (book_toml lang).

  Definition switch (v : string) := ["git"; "switch"; "-d"; v].

  (** a build of the book of [v] while [v] is checked out, from the sources as they were checked out *)
  Definition right_build (evs : list event) (e : event) (fs : files) : Prop :=
    exists v name lang, In v versions /\ In lang ["en"; "ja"] /\ builds e name lang fs
      /\ (name = v \/ (name = "latest" /\ v = latest))
      /\ checked_out evs v
      /\ (mdbook_only_builds -> exists a b fs0, evs = a ++ Ran (switch v) fs0 :: b
            /\ fs (book_toml lang) = snd (x_run X (switch v) fs0) (book_toml lang)).

  Definition sound (evs : list event) : Prop :=
    (forall pre e post args fs, evs = pre ++ e :: post -> e = Ran ("mdbook" :: args) fs -> right_build pre e fs)
    /\ (forall p t, In (Wrote p t) evs -> p = "./books/index.html").

  Lemma sound_nil : sound [].
  Proof. split; [intros [|] ? ? ? ?; discriminate | intros p t []]. Qed.

  Lemma sound_snoc evs e : sound evs ->
    (forall args fs, e = Ran ("mdbook" :: args) fs -> right_build evs e fs) ->
    (forall p t, e = Wrote p t -> p = "./books/index.html") -> sound (evs ++ [e]).
  Proof.
    intros [S1 S2] H K. split.
    - intros pre e' post args fs E Q. apply snoc_split in E as [(-> & -> & ->)|(post' & -> & ->)].
      + eapply H, Q.
      + eapply S1; [reflexivity | exact Q].
    - intros p t I. apply in_app_iff in I as [I|[I|[]]]; [eapply S2, I | eapply K, I].
  Qed.

  (** what holds while [v] is checked out *)
  Definition at_version (v : string) (w : world) : Prop :=
    sound (w_done w) /\ checked_out (w_done w) v
    /\ (mdbook_only_builds -> exists a b fs0, w_done w = a ++ Ran (switch v) fs0 :: b
          /\ forall lang, w_files w (book_toml lang) = snd (x_run X (switch v) fs0) (book_toml lang)).

  (** whatever the outcome *)
  Definition keeps {A} (I : world -> Prop) (x : io A) : Prop := forall w, I w -> I (snd (x w)).

  Lemma keeps_bind {A B} I (x : io A) (f : A -> io B) : keeps I x -> (forall a, keeps I (f a)) -> keeps I (bind x f).
  Proof.
    intros H K w Iw. unfold bind. specialize (H w Iw). destruct (x w) as [[a|t] w1]; [apply K, H | exact H].
  Qed.
  Lemma keeps_looks {A} I (x : io A) : looks x -> keeps I x.
  Proof. intros L w Iw. rewrite L. exact Iw. Qed.

  Lemma checked_snoc evs e v : switched e = None -> checked_out evs v -> checked_out (evs ++ [e]) v.
  Proof. apply co_before. Qed.

  Lemma make_dir_keeps v p : keeps (at_version v) (make_dir P p).
  Proof.
    intros w (S & C & M). unfold make_dir. destruct (p_can_make P p (w_files w)); [|repeat split; assumption || apply S]. simpl.
    split; [|split].
    - apply sound_snoc; [exact S | discriminate | discriminate].
    - apply co_before; [reflexivity | exact C].
    - intros Q. destruct (M Q) as (a & b & fs0 & E & F). simpl. exists a, (b ++ [MadeDir p]), fs0.
      split; [rewrite E, <- app_assoc; reflexivity | exact F].
  Qed.

  Lemma inner_keeps v name lang : In v versions -> In lang ["en"; "ja"] -> name = v \/ (name = "latest" /\ v = latest) ->
    keeps (at_version v) (build_books_inner X lang name).
  Proof.
    intros V L N. unfold build_books_inner.
    apply keeps_bind; [apply keeps_looks, looks_read|]. intros text.
    apply keeps_bind; [apply keeps_looks, looks_need|]. intros doc.
    apply keeps_bind; [apply keeps_looks, looks_need|]. intros _e.
    intros w (S & C & M).
    set (args := ["mdbook"; "build"; "./" ++ lang ++ "/hooq-mdbook-" ++ lang; "-d"; "./books/" ++ name ++ "/" ++ lang]%string).
    assert (E : w_done (snd (command X args w)) = w_done w ++ [Ran args (w_files w)]
                /\ w_files (snd (command X args w)) = snd (x_run X args (w_files w))).
    { unfold command. destruct (x_run X args (w_files w)) as [[[]|] fs]; split; reflexivity. }
    destruct E as [E1 E2]. split; [|split].
    - rewrite E1. apply sound_snoc; [exact S | | discriminate].
      intros a fs Q. injection Q as _ <-. exists v, name, lang.
      split; [exact V|]. split; [exact L|]. split; [reflexivity|]. split; [exact N|]. split; [exact C|].
      intros Q. destruct (M Q) as (x & y & fs0 & F & G). exists x, y, fs0. split; [exact F | apply G].
    - rewrite E1. apply co_before; [reflexivity | exact C].
    - intros Q. destruct (M Q) as (x & y & fs0 & F & G). rewrite E1. exists x, (y ++ [Ran args (w_files w)]), fs0.
      split; [rewrite F, <- app_assoc; reflexivity|]. intros l. rewrite E2. unfold args. rewrite Q. apply G.
  Qed.

  Lemma each_keeps {A} I (l : list A) f : (forall x, In x l -> keeps I (f x)) -> keeps I (each l f).
  Proof.
    induction l as [|a l IH]; intros H; simpl; [apply keeps_looks, looks_ret|].
    apply keeps_bind; [apply H; left; reflexivity|]. intros _. apply IH. intros x J; apply H; right; exact J.
  Qed.

  Lemma build_books_sound v : In v versions ->
    keeps (fun w => sound (w_done w)) (build_books X P v (String.eqb v latest)).
  Proof.
    intros V w S. unfold build_books, bind at 1.
    assert (A : at_version v (World (snd (x_run X (switch v) (w_files w))) (w_done w ++ [Ran (switch v) (w_files w)]))).
    { split; [|split]; cbn [w_done w_files].
      - apply sound_snoc; [exact S | discriminate | discriminate].
      - apply co_now. reflexivity.
      - intros _. exists (w_done w), [], (w_files w). split; reflexivity. }
    fold (switch v). unfold command. destruct (x_run X (switch v) (w_files w)) as [ok fs]; cbn [snd] in A.
    destruct ok as [[]|]; [|apply A|apply A].
    match goal with |- sound (w_done (snd (?x ?w1))) => assert (K : keeps (at_version v) x) end.
    { apply keeps_bind; [apply make_dir_keeps|]. intros _. apply each_keeps. intros lang L.
      apply keeps_bind; [apply inner_keeps; [exact V | exact L | left; reflexivity]|]. intros _.
      destruct (String.eqb_spec v latest) as [E|_]; [|apply keeps_looks, looks_ret].
      apply inner_keeps; [exact V | exact L | right; split; [reflexivity | exact E]]. }
    apply (K _ A).
  Qed.

  Theorem books_sound fs : sound (w_done (snd (books_main X P latest versions (World fs [])))).
  Proof.
    assert (K : keeps (fun w => sound (w_done w)) (books_main X P latest versions)); [|apply K, sound_nil].
    unfold books_main.
    apply keeps_bind; [apply keeps_looks; unfold assert_dir; looking|]. intros _.
    apply keeps_bind; [intros w S; apply sound_snoc; [exact S | discriminate | discriminate]|]. intros _.
    apply keeps_bind.
    { intros w S. unfold make_dir. destruct (p_can_make P "books" (w_files w)); [|exact S]. apply sound_snoc; [exact S | discriminate | discriminate]. }
    intros _. apply keeps_bind.
    { unfold build_index. apply keeps_bind; [apply keeps_looks, looks_need|]. intros page w S. unfold write.
      destruct (x_can_write X "./books/index.html" (w_files w)); [|exact S].
      apply sound_snoc; [exact S | discriminate | intros p t Q; injection Q as -> _; reflexivity]. }
    intros _. apply each_keeps. intros v V. apply build_books_sound, V.
  Qed.

  (** ** What is removed *)

  (** [books] has been removed, before anything else was done, and nothing has been removed since *)
  Definition cleared (w : world) : Prop :=
    exists more, w_done w = RemovedDir "books" :: more /\ forall p, ~ In (RemovedDir p) more.

  Lemma cleared_snoc fs e w : (forall p, e <> RemovedDir p) -> cleared w -> cleared (World fs (w_done w ++ [e])).
  Proof.
    intros N (more & E & F). exists (more ++ [e]). cbn [w_done]. rewrite E. split; [reflexivity|].
    intros p I. apply in_app_or in I as [I|[I|[]]]; [exact (F p I) | exact (N p I)].
  Qed.
  Lemma cleared_make p : keeps cleared (make_dir P p).
  Proof. intros w C. unfold make_dir. destruct (p_can_make P p (w_files w)); [|exact C]. apply cleared_snoc; [discriminate | exact C]. Qed.
  Lemma cleared_write p t : keeps cleared (write X p t).
  Proof. intros w C. unfold write. destruct (x_can_write X p (w_files w)); [|exact C]. apply cleared_snoc; [discriminate | exact C]. Qed.
  Lemma cleared_command args : keeps cleared (command X args).
  Proof.
    intros w C. unfold command. destruct (x_run X args (w_files w)) as [[[]|] fs];
      apply cleared_snoc; discriminate || exact C.
  Qed.
  Lemma cleared_inner lang name : keeps cleared (build_books_inner X lang name).
  Proof.
    unfold build_books_inner.
    apply keeps_bind; [apply keeps_looks, looks_read|]. intros text.
    apply keeps_bind; [apply keeps_looks, looks_need|]. intros doc.
    apply keeps_bind; [apply keeps_looks, looks_need|]. intros _e. apply cleared_command.
  Qed.

  Lemma bind_runs {A B} (x : io A) (f : A -> io B) w a w' : x w = (Done a, w') -> bind x f w = f a w'.
  Proof. intros E. unfold bind. rewrite E. reflexivity. Qed.

  Theorem books_cleared fs :
    (p_in_docs P = false /\ books_main X P latest versions (World fs []) = (Stop TPlace, World fs []))
    \/ (p_in_docs P = true /\ cleared (snd (books_main X P latest versions (World fs [])))).
  Proof.
    unfold books_main. destruct (p_in_docs P) eqn:D; [right | left]; (split; [reflexivity|]).
    2: { unfold bind, assert_dir. rewrite D. reflexivity. }
    erewrite bind_runs; [|unfold assert_dir; rewrite D; reflexivity].
    erewrite bind_runs; [|reflexivity]. cbn [w_files w_done app].
    match goal with |- cleared (snd (?x _)) => assert (K : keeps cleared x) end.
    { apply keeps_bind; [apply cleared_make|]. intros _.
      apply keeps_bind; [unfold build_index; apply keeps_bind; [apply keeps_looks, looks_need | intros page; apply cleared_write]|]. intros _.
      apply each_keeps. intros v _. unfold build_books.
      apply keeps_bind; [apply cleared_command|]. intros _. apply keeps_bind; [apply cleared_make|]. intros _.
      apply each_keeps. intros lang _. apply keeps_bind; [apply cleared_inner|]. intros _.
      destruct (String.eqb v latest); [apply cleared_inner | apply keeps_looks, looks_ret]. }
    apply K. exists []. split; [reflexivity | intros p []].
  Qed.

  (** ** Success *)

  Definition built (evs : list event) (name lang v : string) : Prop :=
    exists pre e post fs, evs = pre ++ e :: post /\ builds e name lang fs /\ checked_out pre v.

  Lemma built_more evs more n l v : built evs n l v -> built (evs ++ more) n l v.
  Proof.
    intros (pre & e & post & fs & -> & B & C). exists pre, e, (post ++ more), fs.
    split; [rewrite <- app_assoc; reflexivity | split; assumption].
  Qed.

  Lemma inner_done lang name v w w' :
    build_books_inner X lang name w = (Done tt, w') -> checked_out (w_done w) v ->
    built (w_done w') name lang v /\ checked_out (w_done w') v /\ exists more, w_done w' = w_done w ++ more.
  Proof.
    intros H C. unfold build_books_inner in H.
    apply bind_done in H as (text & w1 & R & H); apply read_done in R as [_ ->].
    apply bind_done in H as (doc & w1 & R & H); apply need_done in R as [_ ->].
    apply bind_done in H as (ed & w1 & R & H); apply need_done in R as [_ ->].
    apply command_done in H as [_ ->]. cbn [w_done]. split; [|split].
    - eexists (w_done w), _, [], (w_files w). split; [reflexivity|]. split; [reflexivity | exact C].
    - apply co_before; [reflexivity | exact C].
    - eexists; reflexivity.
  Qed.

  Lemma lang_done lang (b : bool) v w w' :
    bind (build_books_inner X lang v) (fun _ => if b then build_books_inner X lang "latest" else ret tt) w = (Done tt, w') ->
    checked_out (w_done w) v ->
    built (w_done w') v lang v /\ (b = true -> built (w_done w') "latest" lang v)
    /\ checked_out (w_done w') v /\ exists more, w_done w' = w_done w ++ more.
  Proof.
    intros H C. apply bind_done in H as ([] & w1 & H & K).
    destruct (inner_done _ _ _ _ _ H C) as (B1 & C1 & m1 & E1).
    destruct b.
    - destruct (inner_done _ _ _ _ _ K C1) as (B2 & C2 & m2 & E2).
      split; [rewrite E2; apply built_more, B1|]. split; [intros _; exact B2|]. split; [exact C2|].
      exists (m1 ++ m2). rewrite E2, E1, app_assoc. reflexivity.
    - apply ret_done in K as [_ ->]. split; [exact B1|]. split; [discriminate|]. split; [exact C1|]. exists m1. exact E1.
  Qed.

  Lemma build_books_done v (b : bool) w w' : build_books X P v b w = (Done tt, w') ->
    (forall lang, In lang ["en"; "ja"] -> built (w_done w') v lang v /\ (b = true -> built (w_done w') "latest" lang v))
    /\ exists more, w_done w' = w_done w ++ more.
  Proof.
    intros H. unfold build_books in H. apply bind_done in H as ([] & w1 & H1 & H). apply command_done in H1 as [_ ->].
    apply bind_done in H as ([] & w2 & H2 & H). unfold make_dir in H2. cbn [w_done w_files] in H2.
    match type of H2 with context [p_can_make ?a ?b ?c] => destruct (p_can_make a b c) end; [|discriminate].
    injection H2 as <-. cbn [each] in H.
    apply bind_done in H as ([] & w3 & H3 & H). apply bind_done in H as ([] & w4 & H4 & H). apply ret_done in H as [_ ->].
    destruct (lang_done _ _ _ _ _ H3) as (B1 & L1 & C1 & m1 & E1).
    { cbn [w_done]. apply co_before; [reflexivity|]. apply co_now. reflexivity. }
    destruct (lang_done _ _ _ _ _ H4 C1) as (B2 & L2 & C2 & m2 & E2).
    split.
    - intros lang [<-|[<-|[]]]; split; try assumption.
      + rewrite E2; apply built_more, B1.
      + intros Q; rewrite E2; apply built_more, L1, Q.
    - cbn [w_done] in E1. eexists. rewrite E2, E1, <- !app_assoc. reflexivity.
  Qed.

  Lemma each_books_done l : forall w w', each l (fun v => build_books X P v (String.eqb v latest)) w = (Done tt, w') ->
    (forall v lang, In v l -> In lang ["en"; "ja"] ->
      built (w_done w') v lang v /\ (v = latest -> built (w_done w') "latest" lang v))
    /\ exists more, w_done w' = w_done w ++ more.
  Proof.
    induction l as [|a l IH]; intros w w' H; cbn [each] in H.
    - apply ret_done in H as [_ ->]. split; [intros v lang [] | exists []; rewrite app_nil_r; reflexivity].
    - apply bind_done in H as ([] & w1 & H1 & H). destruct (build_books_done _ _ _ _ H1) as (B & m1 & E1).
      destruct (IH _ _ H) as (K & m2 & E2). split.
      + intros v lang [<-|I] L; [|apply K; assumption]. destruct (B lang L) as [B1 B2]. rewrite E2.
        split; [apply built_more, B1|]. intros Q. apply built_more, B2, String.eqb_eq, Q.
      + exists (m1 ++ m2). rewrite E2, E1, app_assoc. reflexivity.
  Qed.

  Theorem books_done fs w' : books_main X P latest versions (World fs []) = (Done tt, w') ->
    forall v lang, In v versions -> In lang ["en"; "ja"] ->
      built (w_done w') v lang v /\ (v = latest -> built (w_done w') "latest" lang v).
  Proof.
    intros H. unfold books_main in H.
    apply bind_done in H as ([] & w1 & _ & H). apply bind_done in H as ([] & w2 & _ & H).
    apply bind_done in H as ([] & w3 & _ & H). apply bind_done in H as ([] & w4 & _ & H).
    apply each_books_done in H as [H _]. exact H.
  Qed.
End Books.

(** * new_project.rs *)

Lemma mget_minsert {A} k k' (v : A) m : mget k (minsert k' v m) = if String.eqb k k' then Some v else mget k m.
Proof.
  induction m as [|[k0 v0] m IH]; simpl.
  - destruct (String.eqb k k'); reflexivity.
  - destruct (String.eqb_spec k' k0) as [->|N]; simpl.
    + destruct (String.eqb k k0); reflexivity.
    + destruct (String.eqb_spec k k0) as [->|N'].
      * destruct (String.eqb_spec k0 k'); [congruence | reflexivity].
      * exact IH.
Qed.

Definition hooq_dependency := ["dependencies"; "hooq"].
Definition dev_dependencies := ["dev-dependencies"].
(** the entry that a mode adds for testing *)
Definition dev_entry (m : new_mode) : list string * string :=
  match m with
  | StdOutErr => (["dev-dependencies"; "insta"], "1.44.0")
  | Expand => (["dev-dependencies"; "test-helpers"; "path"], "../../test-helpers")
  end.

Lemma edited_entries m doc doc' : edited m doc = Some doc' ->
  entry doc' ["dependencies"; "hooq"; "path"] (TStr "../../hooq")
  /\ entry doc' (fst (dev_entry m)) (TStr (snd (dev_entry m)))
  /\ (forall ks x, entry doc' ks x -> leaf x -> below dev_dependencies ks -> ks = fst (dev_entry m))
  /\ (forall ks x, entry doc' ks x -> leaf x -> below hooq_dependency ks -> ks = ["dependencies"; "hooq"; "path"])
  /\ (forall ks x, leaf x -> ~ below hooq_dependency ks -> ~ below dev_dependencies ks -> (entry doc' ks x <-> entry doc ks x)).
Proof.
  unfold edited. destruct doc as [s|top|s]; try discriminate.
  destruct (mget "dependencies" top) as [[s|deps|s]|] eqn:D; try discriminate.
  intros E; injection E as <-.
  assert (A : forall k, mget k (minsert "dev-dependencies"
              match m with
              | StdOutErr => TTab [("insta", TStr "1.44.0")]
              | Expand => TTab [("test-helpers", TTab [("path", TStr "../../test-helpers")])]
              end (minsert "dependencies" (TTab (minsert "hooq" (TTab [("path", TStr "../../hooq")]) deps)) top)) =
            if String.eqb k "dev-dependencies" then Some (match m with
              | StdOutErr => TTab [("insta", TStr "1.44.0")]
              | Expand => TTab [("test-helpers", TTab [("path", TStr "../../test-helpers")])]
              end)
            else if String.eqb k "dependencies" then Some (TTab (minsert "hooq" (TTab [("path", TStr "../../hooq")]) deps))
            else mget k top) by (intros k; rewrite !mget_minsert; reflexivity).
  split; [|split; [|split; [|split]]].
  - econstructor; [rewrite A; reflexivity|]. econstructor; [rewrite mget_minsert; reflexivity|].
    econstructor; [reflexivity | constructor].
  - destruct m; cbn [dev_entry fst snd].
    + econstructor; [rewrite A; reflexivity|]. econstructor; [reflexivity | constructor].
    + econstructor; [rewrite A; reflexivity|]. econstructor; [reflexivity|]. econstructor; [reflexivity | constructor].
  - intros ks x H L (r & ->). cbn [dev_dependencies app] in *. inversion H as [|t k w ks0 x0 G E]; subst.
    rewrite A in G. cbn in G. injection G as <-.
    destruct m; inversion E as [|t1 k1 w1 ks1 x1 G1 E1]; subst; try (exfalso; eapply L; reflexivity); cbn [mget] in G1.
    + destruct (String.eqb_spec k1 "insta") as [->|]; [injection G1 as <- | discriminate]. inversion E1; subst; reflexivity.
    + destruct (String.eqb_spec k1 "test-helpers") as [->|]; [injection G1 as <- | discriminate].
      inversion E1 as [|t2 k2 w2 ks2 x2 G2 E2]; subst; [exfalso; eapply L; reflexivity|]. cbn [mget] in G2.
      destruct (String.eqb_spec k2 "path") as [->|]; [injection G2 as <- | discriminate]. inversion E2; subst; reflexivity.
  - intros ks x H L (r & ->). cbn [hooq_dependency app] in *. inversion H as [|t k w ks0 x0 G E]; subst.
    rewrite A in G. cbn [String.eqb Ascii.eqb Bool.eqb] in G. injection G as <-.
    inversion E as [|t1 k1 w1 ks1 x1 G1 E1]; subst. rewrite mget_minsert in G1. cbn in G1. injection G1 as <-.
    inversion E1 as [|t2 k2 w2 ks2 x2 G2 E2]; subst; [exfalso; eapply L; reflexivity|]. cbn [mget] in G2.
    destruct (String.eqb_spec k2 "path") as [->|]; [injection G2 as <- | discriminate]. inversion E2; subst; reflexivity.
  - intros ks x L N1 N2. destruct ks as [|k ks].
    + split; intros H; inversion H; subst; exfalso; eapply L; reflexivity.
    + assert (K : k <> "dev-dependencies") by (intros ->; apply N2; exists ks; reflexivity).
      apply String.eqb_neq in K.
      destruct (String.eqb_spec k "dependencies") as [->|Q].
      * destruct ks as [|k2 ks].
        { split; intros H; inversion H as [|t0 k0 w ks0 x0 G E]; subst.
          - rewrite A in G. cbn in G. injection G as <-. inversion E; subst; exfalso; eapply L; reflexivity.
          - rewrite D in G. injection G as <-. inversion E; subst; exfalso; eapply L; reflexivity. }
        assert (K2 : k2 <> "hooq") by (intros ->; apply N1; exists ks; reflexivity). apply String.eqb_neq in K2.
        split; intros H; inversion H as [|t0 k0 w ks0 x0 G E]; subst.
        -- rewrite A in G. cbn [String.eqb Ascii.eqb Bool.eqb] in G. injection G as <-.
           inversion E as [|t1 k1 w1 ks1 x1 G1 E1]; subst. rewrite mget_minsert, K2 in G1.
           econstructor; [exact D|]. econstructor; eassumption.
        -- rewrite D in G. injection G as <-. inversion E as [|t1 k1 w1 ks1 x1 G1 E1]; subst.
           econstructor; [rewrite A; reflexivity|]. econstructor; [rewrite mget_minsert, K2; exact G1 | exact E1].
      * apply String.eqb_neq in Q.
        split; intros H; inversion H as [|t0 k0 w ks0 x0 G E]; subst.
        -- rewrite A, K, Q in G. econstructor; eassumption.
        -- econstructor; [rewrite A, K, Q; exact G | exact E].
Qed.

Theorem new_done X can_make project m w w' : new_main X can_make project m w = (Done tt, w') ->
  exists text doc doc' out,
    let fs := snd (x_run X ["cargo"; "new"; project] (w_files w)) in
    fs (project ++ "/Cargo.toml")%string = Some text /\ x_toml X text = Some doc
    /\ edited m doc = Some doc' /\ x_toml_text X doc' = Some out
    /\ w_files w' = put (project ++ "/tests/test.rs")
         (match m with StdOutErr => test_std_out_err project | Expand => test_expand end)
         (put (project ++ "/Cargo.toml") out fs).
Proof.
  intros H. unfold new_main in H. apply bind_done in H as ([] & w1 & H1 & H).
  unfold cargo_new in H1. apply command_done in H1 as [_ ->].
  apply bind_done in H as ([] & w2 & H2 & H). unfold edit_cargo_toml in H2.
  apply bind_done in H2 as (text & w3 & R & H2); apply read_done in R as [R ->].
  apply bind_done in H2 as (doc & w3 & T & H2); apply need_done in T as [T ->].
  apply bind_done in H2 as (doc' & w3 & E & H2); apply need_done in E as [E ->].
  apply bind_done in H2 as (out & w3 & O & H2); apply need_done in O as [O ->].
  apply write_done in H2 as [_ ->]. cbn [w_files w_done] in *.
  exists text, doc, doc', out. cbn zeta. repeat split; try assumption.
  assert (K : create_tests_dir X can_make project (match m with StdOutErr => test_std_out_err project | Expand => test_expand end)
                (World (put (project ++ "/Cargo.toml") out (snd (x_run X ["cargo"; "new"; project] (w_files w))))
                  ((w_done w ++ [Ran ["cargo"; "new"; project] (w_files w)]) ++ [Wrote (project ++ "/Cargo.toml") out])) = (Done tt, w'))
    by (destruct m; exact H).
  clear H. unfold create_tests_dir in K. apply bind_done in K as ([] & w3 & K1 & K). unfold make_tests_dir in K1.
  match type of K1 with context [can_make ?a ?b] => destruct (can_make a b) end; [|discriminate].
  injection K1 as <-. apply write_done in K as [_ ->]. cbn [w_files].
  assert (A : forall a, ((a ++ "/tests") ++ "/test.rs" = a ++ "/tests/test.rs")%string)
    by (induction a as [|c a IH]; [reflexivity | cbn; rewrite IH; reflexivity]).
  rewrite A. reflexivity.
Qed.
