(** What the scripts of the repository are for, said apart from how they do it. *)
From Coq Require Import String Ascii Bool Arith ZArith List.
From Verif Require Import Base Io Sync Mask.
Import ListNotations.
Open Scope string_scope.
Open Scope list_scope.

(** * Values of TOML files *)

(** The entry under a path of keys. *)
Inductive entry : toml -> list string -> toml -> Prop :=
| entry_here v : entry v [] v
| entry_in t k w ks x : mget k t = Some w -> entry w ks x -> entry (TTab t) (k :: ks) x.

(** Not a table. *)
Definition leaf (v : toml) : Prop := forall t, v <> TTab t.

(** The same entries, whatever their order. *)
Definition same_entries (a b : toml) : Prop :=
  forall ks x, leaf x -> (entry a ks x <-> entry b ks x).

(** [q] is the path [p] or one below it. *)
Definition below (p q : list string) : Prop := exists r, q = p ++ r.

(** * sync.rs *)

Definition macros_version := ["dependencies"; "hooq-macros"; "version"].
Definition helpers_version := ["dependencies"; "hooq-helpers"; "version"].

(** The file has an entry. *)
Definition file_entry (X : outside) (fs : files) (p : string) (ks : list string) (x : toml) : Prop :=
  exists text doc, fs p = Some text /\ x_toml X text = Some doc /\ entry doc ks x.

(** The version of the workspace is [v], and the crate hooq asks for that version of its two companions. *)
Definition versions_agree (X : outside) (fs : files) (v : string) : Prop :=
  file_entry X fs "./Cargo.toml" ["workspace"; "package"; "version"] (TStr v)
  /\ file_entry X fs "./hooq/Cargo.toml" macros_version (TStr v)
  /\ file_entry X fs "./hooq/Cargo.toml" helpers_version (TStr v).

(** A version on crates.io that counts, and its date. *)
Definition available (W : web) (c : crate_version) (d : Z) : Prop :=
  cv_yanked c = false /\ web_date W (cv_created c) = Some d.

(** The most recent version on crates.io; of several with one date the one crates.io lists last. *)
Definition newest (W : web) (num : string) : Prop :=
  exists before c after d,
    web_versions W = Some (before ++ c :: after)
    /\ cv_num c = num /\ available W c d
    /\ (forall c' d', In c' before -> available W c' d' -> (d' <= d)%Z)
    /\ (forall c' d', In c' after -> available W c' d' -> (d' < d)%Z).

(** The version that READMEs show: the published one while work is in progress, else that of the workspace. *)
Definition shown (W : web) (m : mode) (workspace readme : string) : Prop :=
  match m with Wip => newest W readme | _ => readme = workspace end.

(** The text that a README should have. *)
Inductive readme (X : outside) (fs : files) (version lang : string) : string -> string -> Prop :=
| readme_github t c g r :
    fs ("./docs" ++ lang ++ "/_readme_root.md.template")%string = Some t -> x_render X t [("version", version)] = Some c ->
    fs "./docs/_readme_github.md.template" = Some g -> x_render X g [("common", c)] = Some r ->
    readme X fs version lang ("./docs" ++ lang ++ "/README.md") r
| readme_hooq t c :
    fs ("./docs" ++ lang ++ "/_readme_root.md.template")%string = Some t -> x_render X t [("version", version)] = Some c ->
    readme X fs version lang ("./hooq/docs" ++ lang ++ "/README.md") c
| readme_sub t c g r crate :
    fs ("./docs" ++ lang ++ "/_readme_root.md.template")%string = Some t -> x_render X t [("version", version)] = Some c ->
    fs "./docs/_readme_sub_crates.md.template" = Some g -> x_render X g [("common", c)] = Some r ->
    In crate ["hooq-macros"; "hooq-helpers"] ->
    readme X fs version lang ("./" ++ crate ++ "/docs" ++ lang ++ "/README.md") r.

Definition languages := [""; "/ja"].
Definition readmes (lang : string) : list string :=
  ["./docs" ++ lang ++ "/README.md"; "./hooq/docs" ++ lang ++ "/README.md";
   "./hooq-macros/docs" ++ lang ++ "/README.md"; "./hooq-helpers/docs" ++ lang ++ "/README.md"]%string.

(** Every README of every language has that text. *)
Definition readmes_current (X : outside) (fs : files) (version : string) : Prop :=
  forall lang p, In lang languages -> In p (readmes lang) ->
    exists text, readme X fs version lang p text /\ fs p = Some text.

Definition sort_check := ["cargo"; "sort"; "--workspace"; "--check"].
Definition sort_all := ["cargo"; "sort"; "--workspace"].

(** [cargo sort --check] is content. *)
Definition sorted (X : outside) (fs : files) : Prop := fst (x_run X sort_check fs) = Some true.

(** What the script keeps up. *)
Definition in_step (X : outside) (W : web) (m : mode) (fs : files) : Prop :=
  exists v r, versions_agree X fs v /\ shown W m v r /\ sorted X fs /\ readmes_current X fs r.

(** What is assumed of the tools: *)
Definition cargo_file (p : string) : Prop := exists dir, p = (dir ++ "Cargo.toml")%string.
Record tools (X : outside) : Prop := Tools {
  (* [cargo sort --check] changes no file, and looks at Cargo.toml files only *)
  t_check_looks : forall fs, snd (x_run X sort_check fs) = fs;
  t_check_reads : forall fs fs', (forall p, cargo_file p -> fs p = fs' p) -> sorted X fs -> sorted X fs';
  (* [cargo sort] changes Cargo.toml files only, keeps what they say, and leaves them sorted *)
  t_sort_cargo : forall fs p, ~ cargo_file p -> snd (x_run X sort_all fs) p = fs p;
  t_sort_keeps : forall fs p ks s, file_entry X fs p ks (TStr s) -> file_entry X (snd (x_run X sort_all fs)) p ks (TStr s);
  t_sort_sorts : forall fs, fst (x_run X sort_all fs) = Some true -> sorted X (snd (x_run X sort_all fs));
  (* a printed TOML value reads as one with the same entries *)
  t_toml_back : forall doc text, x_toml_text X doc = Some text ->
    exists doc', x_toml X text = Some doc' /\ same_entries doc doc';
  (* a tag changes no file of the working tree *)
  t_tag : forall t fs, snd (x_run X ["git"; "tag"; t] fs) = fs
}.

(** * generate_mdbooks.rs *)

(** The version that is checked out after some events. *)
Definition switched (e : event) : option string :=
  match e with
  | Ran [git; sw; d; v] _ =>
      if String.eqb git "git" && String.eqb sw "switch" && String.eqb d "-d" then Some v else None
  | _ => None
  end.
Inductive checked_out : list event -> string -> Prop :=
| co_now evs e v : switched e = Some v -> checked_out (evs ++ [e]) v
| co_before evs e v : switched e = None -> checked_out evs v -> checked_out (evs ++ [e]) v.

(** The event is the build of the book in a language into the directory of a name. *)
Definition builds (e : event) (name lang : string) (fs : files) : Prop :=
  e = Ran ["mdbook"; "build"; "./" ++ lang ++ "/hooq-mdbook-" ++ lang; "-d"; "./books/" ++ name ++ "/" ++ lang]%string fs.
Definition book_toml (lang : string) : string := ("./" ++ lang ++ "/hooq-mdbook-" ++ lang ++ "/book.toml")%string.

(** * test-helpers *)

Definition occurs (p s : string) : Prop := exists a b, s = (a ++ p ++ b)%string.

(** No proper part of the end of the text is also its beginning. *)
Definition unbordered (p : string) : Prop :=
  forall a b c, a <> "" -> b <> "" -> p = (a ++ b)%string -> p = (b ++ c)%string -> False.
