(** The script that starts an example of the book (mdbook-source-code/new_project.rs).
    Reading the command line (20-27) is not modelled: the name and the mode are arguments of [new_main]. *)
From Coq Require Import String Ascii Bool Arith List.
From Verif Require Import Base Io.
Import ListNotations.
Open Scope string_scope.
Open Scope list_scope.
Open Scope io_scope.

(** 14-18 *)
Inductive new_mode := StdOutErr | Expand.

(** 67-87: the edited document.  [toml_edit]'s order and layout of entries are not part of the value. *)
Definition edited (m : new_mode) (doc : toml) : option toml :=
  match doc with
  | TTab top =>
      match mget "dependencies" top with
      | Some (TTab deps) =>
          let deps' := minsert "hooq" (TTab [("path", TStr "../../hooq")]) deps in
          let dev := match m with
                     | StdOutErr => TTab [("insta", TStr "1.44.0")]
                     | Expand => TTab [("test-helpers", TTab [("path", TStr "../../test-helpers")])]
                     end in
          Some (TTab (minsert "dev-dependencies" dev (minsert "dependencies" (TTab deps') top)))
      | _ => None
      end
  | _ => None
  end.

(** 100-117 *)
Definition test_std_out_err (project : string) : string :=
  ("#[test]
fn snapshot_test() {
    let output = std::process::Command::new(""cargo"")
        .args([""run"", ""-q""])
        .output()
        .expect(""Failed to execute command"");

    let stdout = String::from_utf8_lossy(&output.stdout);
    let stderr = String::from_utf8_lossy(&output.stderr);

    insta::assert_snapshot!(
        """ ++ project ++ """,
        format!(""STDOUT:\n{}\nSTDERR:\n{}"", stdout, stderr)
    );
}
")%string.

(** 129-161 *)
Definition test_expand : string :=
  "use test_helpers::MaskMode::*;
use test_helpers::mask_project_root;

#[test]
fn snapshot_test() {
    mask_project_root(""."", UnMask);

    let pre_expanded = std::fs::read_to_string(""./src/main.expanded.rs"").ok();

    let output = String::from_utf8_lossy(
        &std::process::Command::new(""cargo"")
            .arg(""expand"")
            .output()
            .unwrap()
            .stdout,
    )
    .to_string();

    if let Some(pre_expanded) = pre_expanded
        && pre_expanded != output
    {
        panic!(
            ""snapshot test failed: \n\n--- pre expanded ---\n{pre_expanded}\n\n--- new expanded ---\n{output}\n""
        );
    } else {
        std::fs::write(""./src/main.expanded.rs"", output).unwrap();
    }

    mask_project_root(""."", Mask);
}
".

Section NewProject.
  Variable X : outside.
  Variable can_make : string -> files -> bool.    (* [create_dir_all] succeeds *)

  (** 45-56 *)
  Definition cargo_new (project : string) : io unit := command X ["cargo"; "new"; project].

  (** 58-93 *)
  Definition edit_cargo_toml (project : string) (m : new_mode) : io unit :=
    let path := (project ++ "/Cargo.toml")%string in
    let! text := read path in
    let! doc := need TToml (x_toml X text) in
    let! doc' := need TNone (edited m doc) in
    let! out := need TToml (x_toml_text X doc') in
    write X path out.

  (** [std::fs::create_dir_all(p)?] *)
  Definition make_tests_dir (p : string) : io unit :=
    fun w => if can_make p (w_files w)
             then (Done tt, World (w_files w) (w_done w ++ [MadeDir p]))
             else (Stop (TDir p), w).

  (** 95-122 and 124-166 *)
  Definition create_tests_dir (project test : string) : io unit :=
    let dir := (project ++ "/tests")%string in
    make_tests_dir dir ;!
    write X (dir ++ "/test.rs") test.

  (** 29-43 *)
  Definition new_main (project : string) (m : new_mode) : io unit :=
    cargo_new project ;!
    edit_cargo_toml project m ;!
    match m with
    | StdOutErr => create_tests_dir project (test_std_out_err project)
    | Expand => create_tests_dir project test_expand
    end.
End NewProject.
