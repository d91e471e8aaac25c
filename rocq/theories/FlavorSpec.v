(** Specification of flavors, hooq.toml and the root attribute, independent of the model's functions.  *)
From Coq Require Import String Ascii Bool Arith Permutation List.
From Verif Require Import Base Tokens Method MethodSpec Paths Context Flavor TomlStore RootAttr.
Import ListNotations.
Open Scope string_scope.
Open Scope list_scope.

(** * Names *)

(** a string made of names and separators *)
Inductive sep : Type := Dot | Colons.
Definition sep_str (s : sep) : string := match s with Dot => "." | Colons => "::" end.
Inductive joined : list string -> string -> Prop :=
| j_one : forall n, joined [n] n
| j_more : forall n s l r, joined l r -> joined (n :: l) (n ++ sep_str s ++ r)%string.

Fixpoint has_char (c : ascii) (s : string) : Prop :=
  match s with EmptyString => False | String d r => d = c \/ has_char c r end.
(** a name as Rust identifiers are: neither dot nor colon *)
Definition simple_name (s : string) : Prop := ~ has_char "." s /\ ~ has_char ":" s.

(** how any string splits: at every dot, and from the left at every [::]; a single colon is part of a name *)
Definition piece (n : string) : Prop := ~ has_char "." n /\ ~ exists a b, n = (a ++ "::" ++ b)%string.
Definition ends_colon (n : string) : Prop := exists a, n = (a ++ ":")%string.
Inductive splits : list string -> string -> Prop :=
| spl_one : forall n, piece n -> splits [n] n
| spl_dot : forall n l r, piece n -> splits l r -> splits (n :: l) (n ++ "." ++ r)%string
| spl_colons : forall n l r, piece n -> ~ ends_colon n -> splits l r -> splits (n :: l) (n ++ "::" ++ r)%string.

(** [denotes v l]: the value of [name = value] names the flavor path [l] *)
Inductive denotes : mvalue -> list string -> Prop :=
| den_path : forall p, Forall (fun s => seg_args s = [] /\ seg_id s <> "") (p_segs p) -> denotes (VPath p) (p_idents p)
| den_str : forall s sp l, splits l s -> Forall (fun n => n <> "") l -> denotes (VStr s sp) l.

(** * Trees of flavors *)

(** the flavor reached from [f] by a path of names, and from a store by a non-empty path *)
Inductive under : flavor -> list string -> flavor -> Prop :=
| un_here : forall f, under f [] f
| un_sub : forall c subs n g l f, mget n subs = Some g -> under g l f -> under (Flavor c subs) (n :: l) f.
Inductive at_path (st : smap flavor) : list string -> flavor -> Prop :=
| at_top : forall n g l f, mget n st = Some g -> under g l f -> at_path st (n :: l) f.

(** the table of a document at a path *)
Inductive table_at : smap ftable -> list string -> tcore -> Prop :=
| ta_here : forall d n t subs, mget n d = Some (FTable t subs) -> table_at d [n] t
| ta_sub : forall d n t subs l t', mget n d = Some (FTable t subs) -> table_at subs l t' -> table_at d (n :: l) t'.

(** keys are distinct at every level: the tables are maps *)
Inductive wf_table : ftable -> Prop :=
| wf_ft : forall t subs, NoDup (keys (tb_bindings t)) -> NoDup (keys subs) ->
    Forall (fun ns => wf_table (snd ns)) subs -> wf_table (FTable t subs).
Definition wf_doc (d : smap ftable) : Prop := NoDup (keys d) /\ Forall (fun ns => wf_table (snd ns)) d.

(** the same document iterated in another order, at every level *)
Definition same_tcore (t t' : tcore) : Prop :=
  tb_traits t = tb_traits t' /\ tb_method t = tb_method t' /\ tb_targets t = tb_targets t' /\ tb_tails t = tb_tails t' /\
  tb_ignores t = tb_ignores t' /\ tb_results t = tb_results t' /\ tb_macros t = tb_macros t' /\
  Permutation (tb_bindings t) (tb_bindings t').
Inductive reordered : ftable -> ftable -> Prop :=
| ro_table : forall t t' s s1 s', same_tcore t t' ->
    Forall2 (fun a b => fst a = fst b /\ reordered (snd a) (snd b)) s s1 -> Permutation s1 s' ->
    reordered (FTable t s) (FTable t' s').
Definition reordered_doc (d d' : smap ftable) : Prop :=
  exists d1, Forall2 (fun a b => fst a = fst b /\ reordered (snd a) (snd b)) d d1 /\ Permutation d1 d'.

(** two flavors with the same settings; bindings are compared as maps *)
Definition same_core (a b : fcore) : Prop :=
  fl_traits a = fl_traits b /\ fl_method a = fl_method b /\ fl_targets a = fl_targets b /\ fl_tails a = fl_tails b /\
  fl_ignores a = fl_ignores b /\ fl_results a = fl_results b /\ fl_macros a = fl_macros b /\
  (forall k, mget k (fl_bindings a) = mget k (fl_bindings b)).
(** two stores that no look-up can tell apart *)
Definition same_store (s s' : smap flavor) : Prop :=
  forall p, (forall f, at_path s p f -> exists f', at_path s' p f' /\ same_core (f_core f) (f_core f')) /\
            (forall f', at_path s' p f' -> exists f, at_path s p f /\ same_core (f_core f) (f_core f')).

(** * Settings of a table *)

(** words of hook_targets *)
Definition word_for (k : kind) (s : string) : Prop :=
  s = "all" \/
  match k with
  | Question => s = "?" \/ s = "question"
  | Return => s = "return"
  | TailExpr => s = "tail_expr" \/ s = "tail expr" \/ s = "tailexpr" \/ s = "tailExpr"
  end.
Definition target_word (s : string) : Prop := exists k, word_for k s.
Definition on (w : switch) (k : kind) : bool :=
  match k with Question => sw_question w | Return => sw_return w | TailExpr => sw_tail w end.
Definition targets_of (l : list string) (w : switch) : Prop :=
  Forall target_word l /\ forall k, on w k = true <-> exists s, In s l /\ word_for k s.

(** the names of a tail_expr_idents list, and those written with [!] *)
Definition banged (s : string) : bool := match s with String "!" _ => true | _ => false end.
Definition unbang (s : string) : string := match s with String "!" r => r | _ => s end.
Definition plain_names (l : list string) : list string := filter (fun s => negb (banged s)) l.
Definition bang_names (l : list string) : list string := map unbang (filter banged l).

Section Settings.
  Variables (PP : string -> option path) (PT PE : string -> option (list tt)) (consume : bool).

  (** [opt_setting given before after]: the given value if there is one, else the value before *)
  Definition opt_setting {A} (given : option A) (before after : A) : Prop :=
    match given with Some x => after = x | None => after = before end.

  (** settings other than trait_uses: what [t] says, and for the rest what [b] says *)
  Definition settled (t : tcore) (b a : fcore) : Prop :=
    match tb_method t with
    | None => fl_method a = fl_method b
    | Some s => exists ts, PT s = Some ts /\ method_of consume ts (fl_method a)
    end /\
    match tb_targets t with
    | None => fl_targets a = fl_targets b
    | Some l => targets_of l (fl_targets a)
    end /\
    opt_setting (option_map plain_names (tb_tails t)) (fl_tails b) (fl_tails a) /\
    fl_ignores a =
      (match tb_ignores t, tb_tails t with
       | None, None => fl_ignores b
       | None, Some l => match bang_names l with [] => fl_ignores b | n => n end
       | Some i, None => i
       | Some i, Some l => bang_names l ++ i
       end) /\
    opt_setting (tb_results t) (fl_results b) (fl_results a) /\
    opt_setting (tb_macros t) (fl_macros b) (fl_macros a) /\
    (forall k, match mget k (tb_bindings t) with
               | Some s => exists ts, PE s = Some ts /\ mget k (fl_bindings a) = Some ts
               | None => mget k (fl_bindings a) = mget k (fl_bindings b)
               end).
  (** what the code does with trait_uses *)
  Definition traits_set (t : tcore) (a : fcore) : Prop := map Some (fl_traits a) = map PP (tb_traits t).

  (** a table whose strings all parse *)
  Definition good_tcore (t : tcore) : Prop :=
    Forall (fun s => PP s <> None) (tb_traits t) /\
    (forall s, tb_method t = Some s -> PT s <> None) /\
    (forall l, tb_targets t = Some l -> Forall target_word l) /\
    Forall (fun kv => PE (snd kv) <> None) (tb_bindings t).
  Inductive good_table : ftable -> Prop :=
  | gt_table : forall t subs, good_tcore t ->
      Forall (fun ns => fst ns <> "" /\ fst ns <> "empty" /\ good_table (snd ns)) subs -> good_table (FTable t subs).
  Definition good_doc (d : smap ftable) : Prop :=
    Forall (fun ns => fst ns <> "" /\ fst ns <> "empty" /\ good_table (snd ns)) d.
End Settings.

(** the sub-flavors that a flavor at path [p] starts with: those of the nearest preset on the path *)
Fixpoint start_subs (subs : smap flavor) (p : list string) : smap flavor :=
  match p with
  | [] => subs
  | n :: r => match mget n subs with Some f => start_subs (f_subs f) r | None => start_subs subs r end
  end.
(** at the top, the sub-flavors of the built-in default *)
Definition start_top (st : smap flavor) (dflt : flavor) (p : list string) : smap flavor :=
  match p with
  | [] => st
  | n :: r => match mget n st with Some f => start_subs (f_subs f) r | None => start_subs (f_subs dflt) r end
  end.

(** * Root attribute *)

(** what an argument says about the flavor, and the trait paths it gives *)
Inductive arg_flavor : meta -> option (list string) -> Prop :=
| af_path : forall p, Forall (fun s => seg_args s = [] /\ seg_id s <> "") (p_segs p) -> p_segs p <> [] ->
    arg_flavor (MPath p) (Some (p_idents p))
| af_list : forall p d ts sp, arg_flavor (MList p d ts sp) None
| af_named : forall sg s sp l, seg_id sg = "flavor" -> seg_args sg = [] -> denotes (VStr s sp) l ->
    arg_flavor (MNameValue (mk_path false [sg]) (VStr s sp)) (Some l).
Inductive arg_traits (PPs : list tt -> option (list path)) : meta -> list path -> Prop :=
| at_path_arg : forall p, arg_traits PPs (MPath p) []
| at_named : forall p v, arg_traits PPs (MNameValue p v) []
| at_uses : forall sg d ts sp l, seg_id sg = "trait_use" \/ seg_id sg = "trait_uses" -> seg_args sg = [] ->
    PPs ts = Some l -> arg_traits PPs (MList (mk_path false [sg]) d ts sp) l.
(** the last argument that names a flavor *)
Fixpoint last_some {A} (l : list (option A)) : option A :=
  match l with
  | [] => None
  | o :: r => match last_some r with Some x => Some x | None => o end
  end.
(** [#[allow(unused)] use P as _;] *)
Definition use_stmt (p : path) : list tt :=
  [qp "#"; qg Bracket [qi "allow"; qg Parenth [qi "unused"]]] ++ [qi "use"] ++ path_toks p ++ [qi "as"; qi "_"] ++ [qp ";"].

(** * The cache of hooq.toml *)

(** an expansion: the package directory and what is on disk there at that time *)
Definition expansion : Type := (string * disk)%type.
(** the document of [dir] that was first read successfully, oldest expansion first *)
Fixpoint first_good (good : smap ftable -> Prop) (dir : string) (h : list expansion) (t : smap ftable) : Prop :=
  match h with
  | [] => False
  | (d, k) :: r =>
      match k with
      | DiskToml t0 => (d = dir /\ good t0 /\ t = t0) \/ (~ (d = dir /\ good t0) /\ first_good good dir r t)
      | _ => first_good good dir r t
      end
  end.
(** the store after a history *)
Fixpoint after_history (te : toml_env) (h : list expansion) (st : toml_store) : toml_store :=
  match h with
  | [] => st
  | (d, k) :: r => after_history te r (snd (with_hooq_toml te d k st))
  end.
