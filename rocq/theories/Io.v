(** What the scripts of the repository share: files, TOML values, external commands.
    No code of the repository of its own: [std::fs], [std::process::Command], [toml::Value].
    Scripts that use it: .github/scripts/sync.rs, docs/generate_mdbooks.rs, mdbook-source-code/new_project.rs,
    test-helpers/src/lib.rs. *)
From Coq Require Import String Ascii Bool Arith List.
From Verif Require Import Base.
Import ListNotations.
Open Scope string_scope.
Open Scope list_scope.

(** [toml::Value], [toml_edit::Item]: strings and tables; every other value is opaque.  [toml_edit] keeps comments and
    layout as well: they are not part of this value. *)
Inductive toml : Type :=
| TStr (s : string)
| TTab (t : smap toml)
| TOther (text : string).

(** [Value::as_table] *)
Definition as_table (v : toml) : option (smap toml) :=
  match v with TTab t => Some t | _ => None end.

(** [Value::as_str] *)
Definition as_str (v : toml) : option string :=
  match v with TStr s => Some s | _ => None end.

(** the chain [.as_table()?.get(k1)?.as_table()?.get(k2)? ..]; all its failures are the same one here (in the code they
    differ in the context that hooq attaches) *)
Fixpoint get_in (ks : list string) (v : toml) : option toml :=
  match ks with
  | [] => Some v
  | k :: r => match as_table v with
              | None => None
              | Some t => match mget k t with None => None | Some w => get_in r w end
              end
  end.

(** assignment through the reference that [.as_table_mut()?.get_mut(k1)? ..] gives; no effect where there is none *)
Fixpoint set_at (k : string) (f : toml -> toml) (t : smap toml) : smap toml :=
  match t with
  | [] => []
  | (k', w) :: r => if String.eqb k k' then (k', f w) :: r else (k', w) :: set_at k f r
  end.
Fixpoint set_in (ks : list string) (x : toml) (v : toml) : toml :=
  match ks with
  | [] => x
  | k :: r => match v with TTab t => TTab (set_at k (set_in r x) t) | _ => v end
  end.

(** The file system: what [read_to_string] finds under a path (none: no such file, or not UTF-8).  Paths are the strings the
    scripts write; two of them never name the same file. *)
Definition files := string -> option string.
Definition put (p t : string) (fs : files) : files :=
  fun q => if String.eqb q p then Some t else fs q.

(** What a script does to the world, in order.  [Ran] records the files at the moment the command starts. *)
Inductive event : Type :=
| Wrote (path text : string)
| Ran (args : list string) (before : files)
| MadeDir (path : string)
| RemovedDir (path : string).

Record world := World { w_files : files; w_done : list event }.

(** Why a script stops; the wording of errors is not modelled. *)
Inductive trouble : Type :=
| TRead (path : string)                  (* std::fs::read_to_string *)
| TWrite (path : string)                 (* std::fs::write *)
| TDir (path : string)                   (* std::fs::create_dir, create_dir_all *)
| TToml                                  (* the text is no TOML, or the value cannot be printed *)
| TNone                                  (* `?` on an Option *)
| TRender                                (* handlebars *)
| TStart (args : list string)            (* Command::status *)
| TStatus (args : list string)           (* a command that reports failure *)
| TWorkspace                             (* sync.rs 121-123 *)
| TMismatch (crate expected found : string)  (* sync.rs 147-151, 165-169 *)
| TOutdated (path : string)              (* sync.rs 229, 246, 264 *)
| TWeb                                   (* sync.rs 62-70 *)
| TNoVersion                             (* sync.rs 86 *)
| TPlace                                 (* generate_mdbooks.rs 23-25 *).

Inductive outcome (A : Type) : Type := Done (a : A) | Stop (t : trouble).
Arguments Done {A}. Arguments Stop {A}.

Definition io (A : Type) := world -> outcome A * world.
Definition ret {A} (a : A) : io A := fun w => (Done a, w).
Definition stop {A} (t : trouble) : io A := fun w => (Stop t, w).
Definition bind {A B} (x : io A) (f : A -> io B) : io B :=
  fun w => match x w with (Done a, w') => f a w' | (Stop t, w') => (Stop t, w') end.
Declare Scope io_scope.
Delimit Scope io_scope with io.
Notation "'let!' x ':=' e 'in' k" := (bind e (fun x => k)) (at level 200, x name, right associativity) : io_scope.
Notation "e ';!' k" := (bind e (fun _ => k)) (at level 199, right associativity) : io_scope.
Open Scope io_scope.

(** [o?] with an error for [None] *)
Definition need {A} (t : trouble) (o : option A) : io A :=
  match o with Some a => ret a | None => stop t end.

(** [for x in l { f(x)?; }] *)
Fixpoint each {A} (l : list A) (f : A -> io unit) : io unit :=
  match l with [] => ret tt | x :: r => f x ;! each r f end.

(** The libraries and the system the scripts run on. *)
Record outside := Outside {
  x_toml : string -> option toml;                 (* toml::from_str, str::parse::<DocumentMut> *)
  x_toml_text : toml -> option string;            (* toml::to_string_pretty, DocumentMut::to_string *)
  x_render : string -> smap string -> option string; (* handlebars, strict and unescaped *)
  x_can_write : string -> files -> bool;          (* fs::write succeeds *)
  x_run : list string -> files -> option bool * files  (* a command: none if it does not start, else whether it reports success *)
}.

Section Io.
  Variable X : outside.

  (** [std::fs::read_to_string(p)?] *)
  Definition read (p : string) : io string :=
    fun w => match w_files w p with Some t => (Done t, w) | None => (Stop (TRead p), w) end.

  (** [std::fs::write(p, t)?].  Simplification: a write that fails leaves the file as it was. *)
  Definition write (p t : string) : io unit :=
    fun w => if x_can_write X p (w_files w)
             then (Done tt, World (put p t (w_files w)) (w_done w ++ [Wrote p t]))
             else (Stop (TWrite p), w).

  (** [Command::new(..).args(..).status()?] and the test of [status.success()] that follows it everywhere *)
  Definition command (args : list string) : io unit :=
    fun w => let (ok, fs) := x_run X args (w_files w) in
             let w' := World fs (w_done w ++ [Ran args (w_files w)]) in
             match ok with
             | None => (Stop (TStart args), w')
             | Some true => (Done tt, w')
             | Some false => (Stop (TStatus args), w')
             end.
End Io.
