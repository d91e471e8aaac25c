(** Properties C53-C56: the scripts and test helpers of the repository. *)
From Coq Require Import String Ascii Bool Arith ZArith Lia List.
From Verif Require Import Base Io Sync Books Mask NewProject ScriptSpec SyncProofs BooksProofs MaskProofs SmallToml Recorded_Readme.
Import ListNotations.
Open Scope string_scope.
Open Scope list_scope.

(** * An instance of the tools *)

Fixpoint toml_eqb (a b : toml) : bool :=
  match a, b with
  | TStr x, TStr y => String.eqb x y
  | TOther x, TOther y => String.eqb x y
  | TTab s, TTab t =>
      (fix go (s t : smap toml) : bool :=
         match s, t with
         | [], [] => true
         | (k, v) :: s', (l, w) :: t' => String.eqb k l && toml_eqb v w && go s' t'
         | _, _ => false
         end) s t
  | _, _ => false
  end.

Lemma toml_eqb_eq : forall a b, toml_eqb a b = true -> a = b.
Proof.
  fix IH 1. intros [x|s|x] [y|t|y] H; simpl in H; try discriminate.
  - apply String.eqb_eq in H; congruence.
  - f_equal. revert t H. induction s as [|[k v] s IHs]; intros [|[l w] t] H; try discriminate; [reflexivity|].
    apply andb_true_iff in H as [H H3]. apply andb_true_iff in H as [H1 H2].
    apply String.eqb_eq in H1; subst l. apply IH in H2; subst w. f_equal. apply IHs, H3.
  - apply String.eqb_eq in H; congruence.
Qed.

(** A printer that knows some texts: it prints a value as one that reads as the value. *)
Definition print_one_of (texts : list string) (doc : toml) : option string :=
  find (fun t => match small_toml t with Some d => toml_eqb d doc | None => false end) texts.

Lemma print_back texts doc text : print_one_of texts doc = Some text -> small_toml text = Some doc.
Proof.
  intros H. apply find_some in H as [_ H]. destruct (small_toml text) as [d|]; [|discriminate].
  f_equal. apply toml_eqb_eq, H.
Qed.

(** Commands that change no file; [cargo sort] needs the manifest of hooq. *)
Definition calm (args : list string) (fs : files) : option bool * files :=
  match args with
  | "cargo" :: "sort" :: _ => (Some (match fs "./hooq/Cargo.toml" with Some _ => true | None => false end), fs)
  | _ => (Some true, fs)
  end.

(** hooq/Cargo.toml with the next version *)
Definition t_hooq_next := replace "version = ""0.3.1""" "version = ""0.3.2""" t_hooq.
Definition X_ex : outside := Outside small_toml (print_one_of [t_hooq_next; t_hooq]) small_render (fun _ _ => true) calm.

Lemma X_ex_tools : tools X_ex.
Proof.
  constructor.
  - intros fs. reflexivity.
  - intros fs fs' H S. unfold sorted in *. cbn in *. rewrite <- H; [exact S|]. exists "./hooq/". reflexivity.
  - intros fs p _. reflexivity.
  - intros fs p ks s H. exact H.
  - intros fs S. exact S.
  - intros doc text H. exists doc. split; [eapply print_back, H | intros ks x _; tauto].
  - intros t fs. reflexivity.
Qed.

(** The repository at the pinned commit. *)
Definition repository : smap string :=
  [("./Cargo.toml", t_workspace); ("./hooq/Cargo.toml", t_hooq);
   ("./docs/_readme_root.md.template", t_root); ("./docs/ja/_readme_root.md.template", t_root_ja);
   ("./docs/_readme_github.md.template", t_github); ("./docs/_readme_sub_crates.md.template", t_sub);
   ("./docs/README.md", t_readme); ("./hooq/docs/README.md", t_readme);
   ("./hooq-macros/docs/README.md", t_readme_sub); ("./hooq-helpers/docs/README.md", t_readme_sub);
   ("./docs/ja/README.md", t_readme_ja); ("./hooq/docs/ja/README.md", t_readme_ja);
   ("./hooq-macros/docs/ja/README.md", t_readme_sub_ja); ("./hooq-helpers/docs/ja/README.md", t_readme_sub_ja)].
(** The next version in the manifest of the workspace. *)
Definition bumped : smap string :=
  minsert "./Cargo.toml" (replace "version = ""0.3.1""" "version = ""0.3.2""" t_workspace) repository.
Definition start (l : smap string) : world := World (of_list l) [].

(** Of four versions on crates.io the newest was withdrawn, and one has no date. *)
Definition W_ex : web :=
  Web (Some [CrateVersion "0.3.2" true "d5"; CrateVersion "0.3.1" false "d4"; CrateVersion "0.4.0-rc" false "soon";
             CrateVersion "0.3.0" false "d3"; CrateVersion "0.2.0" false "d4"])
      (fun s => match s with "d5" => Some 5 | "d4" => Some 4 | "d3" => Some 3 | _ => None end)%Z.

(** * C53: sync.rs *)

(** A run with [--check] succeeds exactly when versions, manifests and READMEs are in step. *)
Theorem C53_check X W m w : tools X ->
  (fst (sync_main X W true m w) = Done tt <-> in_step X W m (w_files w)).
Proof. apply check_iff. Qed.
Print Assumptions C53_check.

(** It changes no file, and runs no command but [cargo sort --check]. *)
Theorem C53_check_reads X W m w : tools X ->
  w_files (snd (sync_main X W true m w)) = w_files w
  /\ (w_done (snd (sync_main X W true m w)) = w_done w
      \/ w_done (snd (sync_main X W true m w)) = w_done w ++ [Ran sort_check (w_files w)]).
Proof. intros T. apply check_looks, T. Qed.
Print Assumptions C53_check_reads.

(** A run without it that succeeds leaves everything in step, for the version the workspace had. *)
Theorem C53_sync X W m w w' : tools X -> sync_main X W false m w = (Done tt, w') ->
  in_step X W m (w_files w')
  /\ exists v, file_entry X (w_files w) "./Cargo.toml" ["workspace"; "package"; "version"] (TStr v)
               /\ versions_agree X (w_files w') v.
Proof. apply sync_in_step. Qed.
Print Assumptions C53_sync.

(** So the check succeeds after it. *)
Corollary C53_then_check X W m w w' : tools X -> sync_main X W false m w = (Done tt, w') ->
  fst (sync_main X W true m w') = Done tt.
Proof. intros T H. apply C53_check; [exact T|]. eapply C53_sync; eassumption. Qed.
Print Assumptions C53_then_check.

(** Whatever the outcome, it writes only the eight READMEs and hooq/Cargo.toml; there only the two version entries
    change; it runs only [cargo sort], and [git tag] in the mode for that, with the version of the workspace, on files
    that are in step. *)
Theorem C53_writes X W m w : tools X ->
  exists evs, w_done (snd (sync_main X W false m w)) = w_done w ++ evs
  /\ (forall p t, In (Wrote p t) evs ->
        (exists lang, In lang languages /\ In p (readmes lang))
        \/ (p = "./hooq/Cargo.toml" /\ exists text doc v doc',
              w_files w "./hooq/Cargo.toml" = Some text /\ x_toml X text = Some doc
              /\ file_entry X (w_files w) "./Cargo.toml" ["workspace"; "package"; "version"] (TStr v)
              /\ x_toml_text X doc' = Some t
              /\ entry doc' macros_version (TStr v) /\ entry doc' helpers_version (TStr v)
              /\ (forall ks x, leaf x -> ~ below macros_version ks -> ~ below helpers_version ks ->
                    (entry doc' ks x <-> entry doc ks x))))
  /\ (forall args before, In (Ran args before) evs ->
        args = sort_all
        \/ (exists v, args = ["git"; "tag"; "v" ++ v]%string /\ m = AddTag
              /\ file_entry X (w_files w) "./Cargo.toml" ["workspace"; "package"; "version"] (TStr v)
              /\ versions_agree X before v /\ in_step X W AddTag before))
  /\ (forall p, ~ In (MadeDir p) evs /\ ~ In (RemovedDir p) evs).
Proof.
  intros T. destruct (sync_adds X W m w T) as (evs & E & F). exists evs. split; [exact E|].
  assert (A : forall e, In e evs -> allowed X W m (w_files w) e) by (apply Forall_forall, F).
  split; [|split].
  - intros p t I. destruct (A _ I) as [H|H]; [right; exact H | left; exact H].
  - intros args b I. apply (A _ I).
  - intros p. split; intros I; exact (A _ I).
Qed.
Print Assumptions C53_writes.

(** The published version is the most recent one that was not withdrawn. *)
Theorem C53_published W w r w' : get_published_version W w = (Done r, w') <-> newest W r /\ w' = w.
Proof.
  split.
  - intros H. assert (w' = w) by (eapply looks_done; [apply published_looks | exact H]). subst w'.
    split; [eapply published_iff, H | reflexivity].
  - intros [N ->]. apply published_iff, N.
Qed.
Print Assumptions C53_published.

(** A run that fails may have written some of the files: here the Japanese template is missing. *)
Theorem C53_failed_unchanged_refuted : exists X W m w, tools X
  /\ (exists p, fst (sync_main X W false m w) = Stop (TRead p))
  /\ exists p, w_files (snd (sync_main X W false m w)) p <> w_files w p.
Proof.
  exists X_ex, W_ex, Publish, (start (filter (fun kv => negb (String.eqb (fst kv) "./docs/ja/_readme_root.md.template")) bumped)).
  split; [exact X_ex_tools|]. split.
  - exists "./docs/ja/_readme_root.md.template". vm_compute. reflexivity.
  - exists "./hooq/Cargo.toml". 
    assert (D : forall a b, String.eqb a b = false -> Some a <> Some b)
      by (intros a b Q R; injection R as ->; rewrite String.eqb_refl in Q; discriminate).
    intros Q. match type of Q with ?l = ?r => assert (Z : match l, r with Some a, Some b => String.eqb a b | _, _ => true end = false)
      by (vm_compute; reflexivity); rewrite Q in Z end.
    vm_compute in Z. discriminate.
Qed.
Print Assumptions C53_failed_unchanged_refuted.

(** The repository at the pinned commit is in step, in the mode that does not ask crates.io. *)
Example C53_ex_repository : fst (sync_main X_ex W_ex true Publish (start repository)) = Done tt.
Proof. vm_compute. reflexivity. Qed.

(** After a new version in the workspace it is not; a run brings it there, with the tag last. *)
Example C53_ex_bumped :
  fst (sync_main X_ex W_ex true Publish (start bumped)) = Stop (TMismatch "hooq-macros" "0.3.2" "0.3.1")
  /\ (let '(o, w') := sync_main X_ex W_ex false AddTag (start bumped) in
      o = Done tt
      /\ map (fun e => match e with Wrote p _ => p | Ran args _ => String.concat " " args | MadeDir p | RemovedDir p => p end) (w_done w')
         = ["./hooq/Cargo.toml"; "cargo sort --workspace";
            "./docs/README.md"; "./hooq/docs/README.md"; "./hooq-macros/docs/README.md"; "./hooq-helpers/docs/README.md";
            "./docs/ja/README.md"; "./hooq/docs/ja/README.md"; "./hooq-macros/docs/ja/README.md"; "./hooq-helpers/docs/ja/README.md";
            "git tag v0.3.2"]
      /\ fst (sync_main X_ex W_ex true Publish w') = Done tt
      /\ (fst (sync_main X_ex W_ex true Wip w') = Stop (TOutdated "./docs/README.md"))).
Proof. vm_compute. repeat split. Qed.

(** Two versions have the latest date: the one listed last counts. *)
Example C53_ex_newest : newest W_ex "0.2.0" /\ ~ newest W_ex "0.3.1" /\ ~ newest W_ex "0.3.2".
Proof.
  assert (E : get_published_version W_ex (start []) = (Done "0.2.0", start [])) by reflexivity.
  split; [eapply published_iff, E|].
  split; intros N; apply (published_iff W_ex (start [])) in N; rewrite E in N; discriminate.
Qed.

(** * C54: generate_mdbooks.rs *)

(** A run that succeeds has built every version in every language while that version was checked out, into a directory
    of that name, and the latest one into [latest] as well. *)
Theorem C54_all X P latest versions fs w' :
  books_main X P latest versions (World fs []) = (Done tt, w') ->
  forall v lang, In v versions -> In lang ["en"; "ja"] ->
    (exists pre e post before, w_done w' = pre ++ e :: post /\ builds e v lang before /\ checked_out pre v)
    /\ (v = latest -> exists pre e post before, w_done w' = pre ++ e :: post /\ builds e "latest" lang before /\ checked_out pre v).
Proof. apply books_done. Qed.
Print Assumptions C54_all.

(** Whatever the outcome, it runs mdbook for nothing else; each book is built from the sources as they were checked out; and the
    index is the only file the script writes itself. *)
Theorem C54_only X P latest versions fs :
  let evs := w_done (snd (books_main X P latest versions (World fs []))) in
  (forall pre e post args before, evs = pre ++ e :: post -> e = Ran ("mdbook" :: args) before ->
     exists v name lang, In v versions /\ In lang ["en"; "ja"] /\ builds e name lang before
       /\ (name = v \/ (name = "latest" /\ v = latest))
       /\ checked_out pre v
       /\ ((forall args fs lang, snd (x_run X ("mdbook" :: args) fs) (book_toml lang) = fs (book_toml lang)) ->
           exists a b fs0, pre = a ++ Ran ["git"; "switch"; "-d"; v] fs0 :: b
             /\ before (book_toml lang) = snd (x_run X ["git"; "switch"; "-d"; v] fs0) (book_toml lang)))
  /\ (forall p t, In (Wrote p t) evs -> p = "./books/index.html").
Proof. intros evs. apply books_sound. Qed.
Print Assumptions C54_only.

(** Outside a directory called docs nothing happens.  In one, the first thing done is to remove [books], whatever is in it, and nothing
    is removed later, whatever the outcome. *)
Theorem C54_place X P latest versions fs :
  let r := books_main X P latest versions (World fs []) in
  (p_in_docs P = false -> (exists t, fst r = Stop t) /\ w_files (snd r) = fs /\ w_done (snd r) = [])
  /\ (p_in_docs P = true -> forall p,
        nth_error (w_done (snd r)) 0 = Some (RemovedDir "books")
        /\ (forall pre post, w_done (snd r) = pre ++ RemovedDir p :: post -> pre = [])).
Proof.
  intros r. unfold r. destruct (books_cleared X P latest versions fs) as [[E H]|[E (more & D & N)]]; rewrite E; split; try discriminate.
  - intros _. rewrite H. split; [exists TPlace; reflexivity | split; reflexivity].
  - intros _ p. rewrite D. split; [reflexivity|]. intros [|e pre] post Q; [reflexivity|].
    injection Q as _ Q. exfalso. apply (N p). rewrite Q. apply in_or_app. right. left. reflexivity.
Qed.
Print Assumptions C54_place.

Definition P_ex : place := Place true (fun _ fs => fs) (fun _ _ => true) (fun vs => Some (String.concat " " vs)).
Definition docs_dir : smap string := [("./en/hooq-mdbook-en/book.toml", t_book_en); ("./ja/hooq-mdbook-ja/book.toml", t_book_ja)].

Definition files_of (e : event) : files := match e with Ran _ b => b | _ => fun _ => None end.
Lemma nth_split_at {A} n (l : list A) d : n < length l -> l = firstn n l ++ nth n l d :: skipn (S n) l.
Proof.
  revert l; induction n as [|n IH]; intros [|x l] H; simpl in *; try lia; [reflexivity|]. f_equal. apply IH. lia.
Qed.

(** The script means to give each book the address it will have (67-76).  The edited book.toml is never written back, so that the book of
    v0.3.0 is built for the address of the latest one: with the book.toml of the repository this is what happens. *)
Theorem C54_site_url_refuted : exists X P fs,
  let r := books_main X P the_latest the_versions (World fs []) in
  fst r = Done tt
  /\ exists pre e post before, w_done (snd r) = pre ++ e :: post /\ builds e "v0.3.0" "en" before
     /\ file_entry X before (book_toml "en") ["output"; "html"; "site-url"] (TStr "/hooq/latest/en/")
     /\ ~ file_entry X before (book_toml "en") ["output"; "html"; "site-url"] (TStr "/hooq/v0.3.0/en").
Proof.
  exists X_ex, P_ex, (of_list docs_dir). split; [vm_compute; reflexivity|].
  set (evs := w_done _). set (e := nth 11 evs (MadeDir "")). set (before := files_of e).
  exists (firstn 11 evs), e, (skipn 12 evs), before.
  split; [unfold e; apply (nth_split_at 11); vm_compute; lia|].
  split; [vm_compute; reflexivity|].
  assert (B : before (book_toml "en") = Some t_book_en) by (vm_compute; reflexivity).
  assert (E : exists t, small_toml t_book_en = Some t /\ entry t ["output"; "html"; "site-url"] (TStr "/hooq/latest/en/")).
  { eexists. split; [vm_compute; reflexivity|]. apply get_in_entry. reflexivity. }
  destruct E as (d & D & E). split.
  - exists t_book_en, d. split; [exact B|]. split; [exact D | exact E].
  - intros (t & d' & F & D' & E'). rewrite B in F. injection F as <-.
    change (small_toml t_book_en = Some d') in D'. assert (d' = d) by congruence. subst d'.
    pose proof (entry_inj _ _ _ _ E E'). discriminate.
Qed.
Print Assumptions C54_site_url_refuted.

(** In another directory than docs. *)
Example C54_ex_place :
  let P := Place false (fun _ _ => of_list []) (fun _ _ => true) (fun vs => Some (String.concat " " vs)) in
  fst (books_main X_ex P the_latest the_versions (World (of_list docs_dir) [])) = Stop TPlace
  /\ w_done (snd (books_main X_ex P the_latest the_versions (World (of_list docs_dir) []))) = []
  /\ nth_error (w_done (snd (books_main X_ex P_ex the_latest the_versions (World (of_list docs_dir) [])))) 0 = Some (RemovedDir "books").
Proof. repeat split. Qed.

(** What is run, in order. *)
Example C54_ex :
  map (fun e => match e with Wrote p _ => p | Ran args _ => String.concat " " args | MadeDir p => p | RemovedDir p => p end)
    (w_done (snd (books_main X_ex P_ex the_latest the_versions (World (of_list docs_dir) []))))
  = ["books"; "books"; "./books/index.html";
     "git switch -d v0.3.1"; "./books/v0.3.1/en";
     "mdbook build ./en/hooq-mdbook-en -d ./books/v0.3.1/en"; "mdbook build ./en/hooq-mdbook-en -d ./books/latest/en";
     "mdbook build ./ja/hooq-mdbook-ja -d ./books/v0.3.1/ja"; "mdbook build ./ja/hooq-mdbook-ja -d ./books/latest/ja";
     "git switch -d v0.3.0"; "./books/v0.3.0/en";
     "mdbook build ./en/hooq-mdbook-en -d ./books/v0.3.0/en"; "mdbook build ./ja/hooq-mdbook-ja -d ./books/v0.3.0/ja"].
Proof. vm_compute. reflexivity. Qed.

(** * C55: test-helpers *)

(** Masking a recorded expansion and unmasking it gives it back, whatever the root is, unless the text had the placeholder already. *)
Theorem C55_mask_unmask root text : root <> "" -> ~ occurs "<hooq_root>" text ->
  processed root UnMask (processed root Mask text) = text.
Proof.
  intros N O. apply replace_back; [exact N | discriminate | apply placeholder_unbordered | exact O].
Qed.
Print Assumptions C55_mask_unmask.

(** The other way round, which is what every test does, this holds where no proper beginning of the root is also its end
    and the recorded text does not have the root. *)
Theorem C55_unmask_mask_partial root text : unbordered root -> root <> "" -> ~ occurs root text ->
  processed root Mask (processed root UnMask text) = text.
Proof. intros U N O. apply replace_back; [discriminate | exact N | exact U | exact O]. Qed.
Print Assumptions C55_unmask_mask_partial.

(** It does not hold for every root. *)
Theorem C55_unmask_mask_refuted : exists root text, root <> "" /\ ~ occurs root text
  /\ processed root Mask (processed root UnMask text) <> text.
Proof.
  exists "/w/w", "/w<hooq_root>". split; [discriminate|]. split; [|vm_compute; discriminate].
  intros (a & b & E).
  repeat (destruct a as [|? a]; cbn in E; [discriminate E | injection E as _ E]). destruct a; discriminate.
Qed.
Print Assumptions C55_unmask_mask_refuted.

(** A masked text no longer has the root, where the root is a path without angle brackets. *)
Theorem C55_masked root text : occurs "/" root -> ~ occurs "<" root -> ~ occurs ">" root ->
  ~ occurs root (processed root Mask text).
Proof.
  intros S L G. assert (N : root <> "") by (intros ->; destruct S as ([|] & b & E); discriminate).
  eapply replaced_gone; [exact N | exact S | exact L | exact G | apply replace_spec, N].
Qed.
Print Assumptions C55_masked.

(** All files: masking and unmasking a directory changes no file, and no file outside the pattern is touched at all. *)
Theorem C55_files X glob root target w1 w2 w3 :
  let l := listed (glob (target ++ "/*.expanded.rs")%string) in
  NoDup l -> root <> "" ->
  (forall p t, In p l -> w_files w1 p = Some t -> ~ occurs "<hooq_root>" t) ->
  mask_project_root X glob root target Mask w1 = (Done tt, w2) ->
  mask_project_root X glob root target UnMask w2 = (Done tt, w3) ->
  (forall p, ~ In p l -> w_files w2 p = w_files w1 p)
  /\ (forall p, w_files w3 p = w_files w1 p).
Proof.
  intros l ND N O H1 H2.
  pose proof (mask_done X root Mask _ ND _ _ H1) as F1. pose proof (mask_done X root UnMask _ ND _ _ H2) as F2.
  fold l in F1, F2. split.
  - intros p I. rewrite F1. destruct (in_dec string_dec p l); [contradiction | reflexivity].
  - intros p. rewrite F2, F1. destruct (in_dec string_dec p l) as [I|_]; [|reflexivity].
    destruct (w_files w1 p) as [t|] eqn:E; [|reflexivity]. cbn [option_map]. f_equal.
    apply C55_mask_unmask; [exact N | eapply O; eassumption].
Qed.
Print Assumptions C55_files.

(** A test that fails leaves the files unmasked, for it panics between the two calls.  The next run unmasks them again: for the root of a
    Unix path that changes nothing, nor does masking twice. *)
Theorem C55_twice_partial root t text : root = String "/" t -> ~ occurs "<" root -> ~ occurs ">" root ->
  forall m, processed root m (processed root m text) = processed root m text.
Proof.
  intros R L G m. assert (N : root <> "") by (rewrite R; discriminate). destruct m; cbn [processed].
  - apply replace_same; [exact N|]. apply (C55_masked root text); [|exact L | exact G]. exists "", t. exact R.
  - apply replace_same; [discriminate|]. eapply placeholder_gone; [exact R | exact L | apply replace_spec; discriminate].
Qed.
Print Assumptions C55_twice_partial.

(** A root with the placeholder in it is replaced in what was put in its place. *)
Theorem C55_twice_refuted : exists root text m, root <> "" /\ processed root m (processed root m text) <> processed root m text.
Proof. exists "/<hooq_root>", "<hooq_root>", UnMask. split; [discriminate | vm_compute; discriminate]. Qed.
Print Assumptions C55_twice_refuted.

(** Whatever the outcome, files outside the pattern stay as they were, and every file is either as it was or masked as a whole. *)
Theorem C55_any X glob root target m w :
  let l := listed (glob (target ++ "/*.expanded.rs")%string) in
  let fs := w_files (snd (mask_project_root X glob root target m w)) in
  NoDup l -> forall p,
    (~ In p l -> fs p = w_files w p)
    /\ (fs p = w_files w p \/ exists text, w_files w p = Some text /\ fs p = Some (processed root m text)).
Proof.
  intros l fs ND p. destruct (mask_any X root m _ ND w p) as [A B]. split; [exact A|].
  destruct B as [B|B]; [left; exact B|]. destruct (w_files w p) as [t|] eqn:E.
  - right. exists t. split; [reflexivity | exact B].
  - left. exact B.
Qed.
Print Assumptions C55_any.

Example C55_ex :
  let root := "/home/u/hooq" in
  let text := "let f = ""/home/u/hooq/tests/a.rs"";" in
  processed root Mask text = "let f = ""<hooq_root>/tests/a.rs"";"
  /\ processed root UnMask (processed root Mask text) = text
  /\ unbordered root /\ occurs "/" root /\ ~ occurs "<" root /\ ~ occurs ">" root /\ ~ occurs "<hooq_root>" text.
Proof.
  cbv zeta. split; [vm_compute; reflexivity|]. split; [vm_compute; reflexivity|]. split; [|split; [|split; [|split]]].
  - intros a b c Na Nb E F. destruct b as [|b0 b]; [congruence|]. cbn in F. injection F as <- F.
    assert (L : String.length (a ++ String "/" b) = 12) by (rewrite <- E; reflexivity).
    destruct a as [|a0 a]; [congruence|]. cbn in E. injection E as <- E.
    repeat (destruct a as [|? a]; cbn in E; [try discriminate E | injection E as _ E]);
      try (destruct a; discriminate E); injection E as <-; cbn in F; discriminate F.
  - exists "", "home/u/hooq". reflexivity.
  - no_char.
  - no_char.
  - intros (a & b & E).
    repeat (destruct a as [|? a]; cbn in E; [discriminate E | injection E as _ E]). destruct a; discriminate.
Qed.

Example C55_ex_files :
  let glob := fun p => if String.eqb p "tests/*.expanded.rs" then [Some "tests/a.expanded.rs"; None] else [] in
  let w := start [("tests/a.expanded.rs", "file = /r/x"); ("tests/a.rs", "/r")] in
  match mask_project_root X_ex glob "/r" "tests" Mask w with
  | (Done _, w2) => w_files w2 "tests/a.expanded.rs" = Some "file = <hooq_root>/x" /\ w_files w2 "tests/a.rs" = Some "/r"
      /\ fst (mask_project_root X_ex glob "/r" "tests" UnMask w2) = Done tt
  | _ => False
  end.
Proof. vm_compute. repeat split. Qed.

(** The second file is missing: the first is masked, the third is not. *)
Example C55_ex_any :
  let glob := fun _ => [Some "tests/a.expanded.rs"; Some "tests/b.expanded.rs"; Some "tests/c.expanded.rs"] in
  let w := start [("tests/a.expanded.rs", "file = /r/x"); ("tests/c.expanded.rs", "/r"); ("tests/a.rs", "/r")] in
  let r := mask_project_root X_ex glob "/r" "tests" Mask w in
  fst r = Stop (TRead "tests/b.expanded.rs")
  /\ w_files (snd r) "tests/a.expanded.rs" = Some "file = <hooq_root>/x" /\ w_files (snd r) "tests/c.expanded.rs" = Some "/r"
  /\ NoDup (listed (glob "tests/*.expanded.rs"))
  /\ processed "/r" UnMask (processed "/r" UnMask "file = <hooq_root>/<hooq_root>") = "file = /r//r".
Proof.
  vm_compute. repeat split. repeat constructor; cbn; intros H; repeat destruct H as [H|H]; discriminate || contradiction.
Qed.

(** * C56: new_project.rs *)

(** A new example depends on the crate in the repository and on one crate for its test, and on nothing else new; what cargo wrote stays;
    apart from the manifest only the test is written. *)
Theorem C56 X can_make project m w w' : new_main X can_make project m w = (Done tt, w') ->
  let fs := snd (x_run X ["cargo"; "new"; project] (w_files w)) in
  exists text doc doc' out,
    fs (project ++ "/Cargo.toml")%string = Some text /\ x_toml X text = Some doc /\ x_toml_text X doc' = Some out
    /\ w_files w' (project ++ "/Cargo.toml")%string = Some out
    /\ (forall ks x, leaf x -> ~ below ["dependencies"; "hooq"] ks -> ~ below ["dev-dependencies"] ks ->
          (entry doc' ks x <-> entry doc ks x))
    /\ (forall ks x, leaf x -> below ["dependencies"; "hooq"] ks ->
          (entry doc' ks x <-> ks = ["dependencies"; "hooq"; "path"] /\ x = TStr "../../hooq"))
    /\ (forall ks x, leaf x -> below ["dev-dependencies"] ks ->
          (entry doc' ks x <-> match m with
                               | StdOutErr => ks = ["dev-dependencies"; "insta"] /\ x = TStr "1.44.0"
                               | Expand => ks = ["dev-dependencies"; "test-helpers"; "path"] /\ x = TStr "../../test-helpers"
                               end))
    /\ (forall p, p <> (project ++ "/Cargo.toml")%string -> p <> (project ++ "/tests/test.rs")%string -> w_files w' p = fs p)
    /\ w_files w' (project ++ "/tests/test.rs")%string
       = Some (match m with StdOutErr => test_std_out_err project | Expand => test_expand end).
Proof.
  intros H. cbv zeta. destruct (new_done _ _ _ _ _ _ H) as (text & doc & doc' & out & R & T & E & O & F).
  exists text, doc, doc', out. destruct (edited_entries _ _ _ E) as (E1 & E2 & E3 & E4 & E5).
  assert (N : forall a, ~ (a ++ "/Cargo.toml" = a ++ "/tests/test.rs")%string) by (induction a as [|c a IH]; cbn; congruence).
  split; [exact R|]. split; [exact T|]. split; [exact O|]. split; [|split; [exact E5|split; [|split; [|split]]]].
  - rewrite F. unfold put. rewrite String.eqb_refl.
    destruct (String.eqb_spec (project ++ "/Cargo.toml") (project ++ "/tests/test.rs")) as [Q|_]; [destruct (N _ Q) | reflexivity].
  - intros ks x L B. split.
    + intros Q. assert (ks = ["dependencies"; "hooq"; "path"]) by (eapply E4; eassumption). subst ks.
      split; [reflexivity | eapply entry_inj; eassumption].
    + intros [-> ->]. exact E1.
  - intros ks x L B. destruct m; (split; [intros Q; assert (K := E3 _ _ Q L B); subst ks; split; [reflexivity | eapply entry_inj; eassumption]
                                        | intros [-> ->]; exact E2]).
  - intros p N1 N2. rewrite F. unfold put. apply String.eqb_neq in N1, N2. rewrite N1, N2. reflexivity.
  - rewrite F. unfold put. rewrite String.eqb_refl. reflexivity.
Qed.
Print Assumptions C56.

(** Whatever the outcome, the script runs nothing but [cargo new], which comes first; what it writes comes after it, in this order, and
    nothing does if the command fails. *)
Theorem C56_any X can_make project m fs :
  let r := new_main X can_make project m (World fs []) in
  exists n out,
    w_done (snd r) = firstn n [Ran ["cargo"; "new"; project] fs; Wrote (project ++ "/Cargo.toml") out; MadeDir (project ++ "/tests");
                               Wrote (project ++ "/tests/test.rs") (match m with StdOutErr => test_std_out_err project | Expand => test_expand end)]
    /\ 1 <= n <= 4 /\ (fst r = Done tt <-> n = 4) /\ (fst (x_run X ["cargo"; "new"; project] fs) <> Some true -> n = 1).
Proof.
  cbv zeta.
  assert (A : forall a, ((a ++ "/tests") ++ "/test.rs" = a ++ "/tests/test.rs")%string)
    by (induction a as [|c a IH]; [reflexivity | cbn; rewrite IH; reflexivity]).
  unfold new_main, cargo_new, bind, command. cbn [w_files w_done app].
  destruct (x_run X ["cargo"; "new"; project] fs) as [[[]|] fs1]; cbn [fst].
  2,3: exists 1, ""; cbn; (split; [reflexivity|]); (split; [lia|]); split; [split; discriminate | reflexivity].
  unfold edit_cargo_toml, bind, read. cbn [w_files w_done].
  assert (S1 : forall t, exists n out, [Ran ["cargo"; "new"; project] fs] =
      firstn n [Ran ["cargo"; "new"; project] fs; Wrote (project ++ "/Cargo.toml") out; MadeDir (project ++ "/tests");
                Wrote (project ++ "/tests/test.rs") (match m with StdOutErr => test_std_out_err project | Expand => test_expand end)]
      /\ 1 <= n <= 4 /\ (@Stop unit t = Done tt <-> n = 4) /\ (Some true <> Some true -> n = 1)).
  { intros t. exists 1, "". cbn. split; [reflexivity|]. split; [lia|]. split; [split; discriminate | reflexivity]. }
  destruct (fs1 (project ++ "/Cargo.toml")%string) as [text|]; cbn [fst snd w_done]; [|apply S1].
  unfold need. destruct (x_toml X text) as [doc|]; cbn [ret stop fst snd w_done]; [|apply S1].
  destruct (edited m doc) as [doc'|]; cbn [ret stop fst snd w_done]; [|apply S1].
  destruct (x_toml_text X doc') as [out|]; cbn [ret stop fst snd w_done]; [|apply S1].
  unfold write at 1. cbn [w_files w_done].
  unfold write at 1. cbn [w_files w_done].
  destruct (x_can_write X (project ++ "/Cargo.toml")%string fs1); cbn [fst snd w_done]; [|apply S1].
  destruct m; unfold create_tests_dir, bind, make_tests_dir; cbn [w_files w_done];
    (match goal with |- context [can_make ?p ?f] => destruct (can_make p f) end; cbn [fst snd w_done];
     [|exists 2, out; cbn; (split; [reflexivity|]); (split; [lia|]); split; [split; discriminate | intros Q; congruence]]);
    unfold write; cbn [w_files w_done];
    (match goal with |- context [x_can_write X ?p ?f] => destruct (x_can_write X p f) end; cbn [fst snd w_done];
     [exists 4, out; cbn; rewrite A; (split; [reflexivity|]); (split; [lia|]); split; [split; reflexivity | intros Q; congruence]
     |exists 3, out; cbn; (split; [reflexivity|]); (split; [lia|]); split; [split; discriminate | intros Q; congruence]]).
Qed.
Print Assumptions C56_any.

(** The reader of the examples does not see a table without entries; a dependency stands for it. *)
Example C56_ex :
  let X := Outside small_toml (print_one_of ["[package]
name = ""demo""
[dependencies]
log = ""0.4""
[dependencies.hooq]
path = ""../../hooq""
[dev-dependencies]
insta = ""1.44.0""
"]) small_render (fun _ _ => true)
             (fun args fs => (Some true, put "demo/Cargo.toml" "[package]
name = ""demo""
[dependencies]
log = ""0.4""
" fs)) in
  let r := new_main X (fun _ _ => true) "demo" StdOutErr (start []) in
  fst r = Done tt /\ w_files (snd r) "demo/Cargo.toml" <> None /\ w_files (snd r) "demo/tests/test.rs" = Some (test_std_out_err "demo").
Proof. vm_compute. repeat split. discriminate. Qed.

(** [cargo new] fails, for the directory is there; or it writes a manifest without dependencies. *)
Example C56_ex_any :
  let X ok text := Outside small_toml (fun _ => None) small_render (fun _ _ => true) (fun _ fs => (Some ok, put "demo/Cargo.toml" text fs)) in
  let r ok := new_main (X ok "[package]
name = ""demo""
") (fun _ _ => true) "demo" Expand (start []) in
  fst (r false) = Stop (TStatus ["cargo"; "new"; "demo"]) /\ fst (r true) = Stop TNone
  /\ length (w_done (snd (r false))) = 1 /\ length (w_done (snd (r true))) = 1.
Proof. vm_compute. repeat split. Qed.
