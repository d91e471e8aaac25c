(** Instances of the oracles of the scripts, for examples: a reader for simple TOML files, templates without blocks. *)
From Coq Require Import String Ascii Bool Arith List.
From Verif Require Import Base Io Mask.
Import ListNotations.
Open Scope string_scope.
Open Scope list_scope.

Definition newline : ascii := "010"%char.

(** The parts between occurrences of a character. *)
Fixpoint split_at (c : ascii) (s : string) : list string :=
  match s with
  | EmptyString => [""]
  | String d r =>
      if Ascii.eqb c d then "" :: split_at c r
      else match split_at c r with
           | [] => [String d ""]
           | x :: l => String d x :: l
           end
  end.

(** The text before and after the first occurrence of [p]. *)
Fixpoint cut (p s : string) : option (string * string) :=
  match strip p s with
  | Some r => Some ("", r)
  | None => match s with
            | EmptyString => None
            | String c r => match cut p r with Some (a, b) => Some (String c a, b) | None => None end
            end
  end.

(** [k = v] in the table under a path of keys, which is made where it is missing. *)
Fixpoint add_in (ks : list string) (k : string) (v : toml) (t : smap toml) : smap toml :=
  match ks with
  | [] => minsert k v t
  | a :: r => minsert a (TTab (add_in r k v (match mget a t with Some (TTab u) => u | _ => [] end))) t
  end.

(** Headers [[a.b]], lines [k = "text"] and [k = ..]; other lines (parts of long values) are passed over. *)
Fixpoint toml_lines (ls : list string) (here : list string) (t : smap toml) : smap toml :=
  match ls with
  | [] => t
  | l :: r =>
      match strip "[" l with
      | Some h => match cut "]" h with Some (name, _) => toml_lines r (split_at "." name) t | None => toml_lines r here t end
      | None =>
          match cut " = " l with
          | Some (k, v) =>
              let value := match strip """" v with
                           | Some q => match cut """" q with Some (x, _) => TStr x | None => TOther v end
                           | None => TOther v
                           end in
              toml_lines r here (add_in here k value t)
          | None => toml_lines r here t
          end
      end
  end.
Definition small_toml (text : string) : option toml := Some (TTab (toml_lines (split_at newline text) [] [])).

(** Handlebars for [{{name}}], strict: what is left unnamed is an error. *)
Definition small_render (template : string) (values : smap string) : option string :=
  let fix known (parts : list string) := match parts with
    | [] => true
    | p :: r => match cut "}}" p with
                | Some (name, _) => match mget name values with Some _ => known r | None => false end
                | None => false
                end
    end in
  let fix pieces (fuel : nat) (s : string) : list string :=
    match fuel with
    | O => []
    | S f => match cut "{{" s with Some (_, r) => r :: pieces f r | None => [] end
    end in
  if known (pieces (String.length template) template)
  then Some (fold_left (fun s kv => replace ("{{" ++ fst kv ++ "}}") (snd kv) s) values template)
  else None.

(** A file system with some files. *)
Definition of_list (l : smap string) : files := fun p => mget p l.
