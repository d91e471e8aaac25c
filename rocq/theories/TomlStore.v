(** The store of loaded hooq.toml files (flavor/mod.rs 83-157).  *)
From Coq Require Import String Ascii Bool Arith List.
From Verif Require Import Base Tokens Method Paths Context Flavor.
Import ListNotations.
Open Scope string_scope.
Open Scope list_scope.

(** [LOADED_HOOQ_TOML]: from manifest directory to checked toml (flavor/mod.rs 88-94).  The mutex makes each
    [get] and [set] atomic. *)
Definition toml_store := smap (smap ftable).

(** What is on disk at [DIR/hooq.toml] at a given moment (flavor/mod.rs 105-113). *)
Inductive disk : Type :=
| DiskAbsent                        (* try_exists is Ok(false) or Err *)
| DiskUnreadable                    (* read_to_string fails *)
| DiskNotToml                       (* toml::from_str fails *)
| DiskToml (t : smap ftable).

(** the parsers used by apply.rs *)
Record toml_env : Type := mk_toml_env {
  te_features : features;
  te_path : string -> option path;
  te_ts : string -> option (list tt);
  te_expr : string -> option (list tt) }.

(** flavor/mod.rs 207-217 *)
Definition build_store (te : toml_env) (t : smap ftable) : res (smap flavor) :=
  store_try_from (te_path te) (te_ts te) (te_expr te) (ft_consume (te_features te)) (te_features te) t.

Section Load.
  Variable te : toml_env.

  (** flavor/mod.rs 97-120: [dir] is CARGO_MANIFEST_DIR (or "."), [d] what is on disk there now *)
  Definition load (dir : string) (d : disk) (st : toml_store) : res (option (smap ftable)) * toml_store :=
    match mget dir st with
    | Some t => (Ok (Some t), st)
    | None =>
        match d with
        | DiskAbsent => (Ok None, st)
        | DiskUnreadable => (Err ErrReadFile, st)
        | DiskNotToml => (Err ErrParseToml, st)
        | DiskToml t =>
            match build_store te t with                                (* 219-228 *)
            | Ok _ => (Ok (Some t), minsert dir t st)
            | Err e => (Err e, st)
            | Panic m => (Panic m, st)
            end
        end
    end.

  (** flavor/mod.rs 148-157; [unwrap] of line 153 is the [Panic] *)
  Definition with_hooq_toml (dir : string) (d : disk) (st : toml_store) : res (smap flavor) * toml_store :=
    match load dir d st with
    | (Ok None, st') => (Ok (preset_flavors (te_features te)), st')
    | (Ok (Some t), st') =>
        (match build_store te t with
         | Ok fs => Ok fs
         | _ => Panic "called `Result::unwrap()` on an `Err` value"
         end, st')
    | (Err e, st') => (Err e, st')
    | (Panic m, st') => (Panic m, st')
    end.
End Load.

(** inert_attr/parse.rs 116-121 and root_attr/mod.rs 63-84: the flavor a path names, given the cache and the file on disk.
    One look-up; the model's walker takes all look-ups of an expansion from one such function, so the file does not change
    while an item is expanded. *)
Definition flavor_lookup (te : toml_env) (dir : string) (d : disk) (st : toml_store) (p : list string) : res fcore :=
  bindR (fst (with_hooq_toml te dir d st)) (fun fs => bindR (get_flavor fs p) (fun f => Ok (f_core f))).
