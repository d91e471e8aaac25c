(** The script that builds the online books (docs/generate_mdbooks.rs).
    [LATEST] and [VERSIONS] (13-14) are the parameters [latest] and [versions]; their values are at the end. *)
From Coq Require Import String Ascii Bool Arith List.
From Verif Require Import Base Io.
Import ListNotations.
Open Scope string_scope.
Open Scope list_scope.
Open Scope io_scope.

(** What else the script meets: whether it is run in a directory called [docs] (18-20), what becomes of the files when
    [books] is removed (114; whether that succeeds is ignored), whether a directory can be made, the rendered index page (31-43). *)
Record place := Place {
  p_in_docs : bool;
  p_remove : string -> files -> files;
  p_can_make : string -> files -> bool;
  p_index : list string -> option string
}.

Section Books.
  Variable X : outside.
  Variable P : place.
  Variable latest : string.
  Variable versions : list string.

  (** [std::fs::create_dir(p)?] and [create_dir_all(p)?]: no file changes *)
  Definition make_dir (p : string) : io unit :=
    fun w => if p_can_make P p (w_files w)
             then (Done tt, World (w_files w) (w_done w ++ [MadeDir p]))
             else (Stop (TDir p), w).

  (** [std::fs::remove_dir_all(p).ok()] *)
  Definition remove_dir (p : string) : io unit :=
    fun w => (Done tt, World (p_remove P p (w_files w)) (w_done w ++ [RemovedDir p])).

  (** 16-27 *)
  Definition assert_dir : io unit :=
    if p_in_docs P then ret tt else stop TPlace.

  (** 29-48 *)
  Definition build_index : io unit :=
    let! page := need TRender (p_index P versions) in
    write X "./books/index.html" page.

  (** [Table::insert] at the end of the chain of 67-76: the entry is replaced or added *)
  Definition insert_in (ks : list string) (k : string) (x : toml) (doc : toml) : option toml :=
    match get_in ks doc with
    | Some (TTab t) => Some (set_in ks (TTab (minsert k x t)) doc)
    | _ => None
    end.

  (** 62-97.  The edited document is a local variable that nothing reads after 76. *)
  Definition build_books_inner (lang version : string) : io unit :=
    let dir := ("./" ++ lang ++ "/hooq-mdbook-" ++ lang)%string in
    let! text := read (dir ++ "/book.toml") in
    let! doc := need TToml (x_toml X text) in
    let! _edited := need TNone (insert_in ["output"; "html"] "site-url"
                                  (TStr ("/hooq/" ++ version ++ "/" ++ lang)) doc) in
    command X ["mdbook"; "build"; dir; "-d"; ("./books/" ++ version ++ "/" ++ lang)%string].

  (** 50-108 *)
  Definition build_books (version : string) (is_latest : bool) : io unit :=
    command X ["git"; "switch"; "-d"; version] ;!
    make_dir ("./books/" ++ version ++ "/en") ;!
    each ["en"; "ja"] (fun lang =>
      build_books_inner lang version ;!
      (if is_latest then build_books_inner lang "latest" else ret tt)).

  (** 110-125 *)
  Definition books_main : io unit :=
    assert_dir ;!
    remove_dir "books" ;!
    make_dir "books" ;!
    build_index ;!
    each versions (fun version => build_books version (String.eqb version latest)).
End Books.

(** 13-14 *)
Definition the_latest := "v0.3.1".
Definition the_versions := ["v0.3.1"; "v0.3.0"].
