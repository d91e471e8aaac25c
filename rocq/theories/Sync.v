(** The script that keeps versions and READMEs in step (.github/scripts/sync.rs).
    The macro [#[hooq(anyhow)]] on its functions only adds context to errors, which are not told apart that far here.
    Reading the command line (clap, 30-36) is not modelled: [check] and [mode] are arguments of [sync_main]. *)
From Coq Require Import String Ascii Bool Arith ZArith List.
From Verif Require Import Base Io.
Import ListNotations.
Open Scope string_scope.
Open Scope list_scope.
Open Scope io_scope.

(** sync.rs 23-28 *)
Inductive mode := Wip | Publish | AddTag.

(** sync.rs 50-55 *)
Record crate_version := CrateVersion { cv_num : string; cv_yanked : bool; cv_created : string }.

(** What crates.io answers (none: no answer, or one that is not of the form of 50-60), and
    [DateTime::parse_from_rfc3339] as the instant that dates are compared by. *)
Record web := Web { web_versions : option (list crate_version); web_date : string -> option Z }.

Section Sync.
  Variable X : outside.
  Variable W : web.

  (** sync.rs 75-84: the closure of [filter_map] *)
  Definition dated (v : crate_version) : option (string * Z) :=
    if cv_yanked v then None
    else match web_date W (cv_created v) with
         | None => None
         | Some d => Some (cv_num v, d)
         end.
  Fixpoint filter_map {A B} (f : A -> option B) (l : list A) : list B :=
    match l with
    | [] => []
    | x :: r => match f x with Some y => y :: filter_map f r | None => filter_map f r end
    end.

  (** [Iterator::max_by_key]: of several greatest elements the last *)
  Definition later (a b : string * Z) : string * Z := if (snd a >? snd b)%Z then a else b.
  Definition max_by_date (l : list (string * Z)) : option (string * Z) :=
    match l with [] => None | x :: r => Some (fold_left later r x) end.

  (** sync.rs 48-89 *)
  Definition get_published_version : io string :=
    let! vs := need TWeb (web_versions W) in
    let! v := need TNoVersion (max_by_date (filter_map dated vs)) in
    ret (fst v).

  (** sync.rs 138-154 and 156-172: one of the two version entries *)
  Definition sync_entry (check : bool) (version crate : string) (doc : toml) : io toml :=
    let path := ["dependencies"; crate; "version"] in
    let! entry := need TNone (get_in path doc) in
    if check then
      let! found := need TNone (as_str entry) in
      if String.eqb version found then ret doc else stop (TMismatch crate version found)
    else ret (set_in path (TStr version) doc).

  (** sync.rs 116-182 *)
  Definition sync_sub_crate_versions (check : bool) : io string :=
    let! text := read "./Cargo.toml" in
    let! ws := need TToml (x_toml X text) in
    let! tab := need TNone (as_table ws) in
    (match mget "workspace" tab with None => stop TWorkspace | Some _ => ret tt end) ;!
    let! entry := need TNone (get_in ["workspace"; "package"; "version"] ws) in
    let! version := need TNone (as_str entry) in
    let! text2 := read "./hooq/Cargo.toml" in
    let! doc := need TToml (x_toml X text2) in
    let! doc1 := sync_entry check version "hooq-macros" doc in
    let! doc2 := sync_entry check version "hooq-helpers" doc1 in
    (if check then ret tt
     else let! out := need TToml (x_toml_text X doc2) in write X "./hooq/Cargo.toml" out) ;!
    ret version.

  (** sync.rs 184-205 *)
  Definition cargo_sort (check : bool) : io unit :=
    command X (["cargo"; "sort"; "--workspace"] ++ (if check then ["--check"] else [])).

  (** sync.rs 226-235, 243-252, 261-271: compare with the file or write it *)
  Definition sync_file (check : bool) (path text : string) : io unit :=
    if check then
      let! existing := read path in
      if String.eqb existing text then ret tt else stop (TOutdated path)
    else write X path text.

  (** sync.rs 207-275 *)
  Definition sync_readme (lang : string) (check : bool) (version : string) : io unit :=
    let! template := read ("./docs" ++ lang ++ "/_readme_root.md.template") in
    let! common := need TRender (x_render X template [("version", version)]) in
    let! gh_template := read "./docs/_readme_github.md.template" in
    let! gh := need TRender (x_render X gh_template [("common", common)]) in
    sync_file check ("./docs" ++ lang ++ "/README.md") gh ;!
    sync_file check ("./hooq/docs" ++ lang ++ "/README.md") common ;!
    let! sub_template := read "./docs/_readme_sub_crates.md.template" in
    let! sub := need TRender (x_render X sub_template [("common", common)]) in
    each ["hooq-macros"; "hooq-helpers"] (fun crate =>
      sync_file check ("./" ++ crate ++ "/docs" ++ lang ++ "/README.md") sub).

  (** sync.rs 277-297; what it prints is not modelled *)
  Definition git_tag (version : string) : io unit :=
    command X ["git"; "tag"; ("v" ++ version)%string].

  (** sync.rs 91-114 *)
  Definition sync_main (check : bool) (m : mode) : io unit :=
    let! current := sync_sub_crate_versions check in
    let! version := match m with Wip => get_published_version | Publish | AddTag => ret current end in
    cargo_sort check ;!
    each [""; "/ja"] (fun lang => sync_readme lang check version) ;!
    match m with
    | AddTag => if check then ret tt else git_tag current
    | _ => ret tt
    end.
End Sync.
