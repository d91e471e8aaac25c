(** Paths and attributes of [syn].  *)
From Coq Require Import String Ascii Bool Arith List.
From Verif Require Import Base Tokens.
Import ListNotations.
Open Scope string_scope.
Open Scope list_scope.

(** where a segment was written: its identifier and the two characters of the [::] before it; [None] where there is no [::], or one that [quote!] writes *)
Record seg_at : Type := mk_seg_at { sg_ident : span; sg_colons : option (span * span) }.
Definition just_at (sp : span) : seg_at := mk_seg_at sp None.
Coercion just_at : span >-> seg_at.
(** [syn::PathSegment]: the identifier and its generic arguments as tokens ([[]] = [PathArguments::None]). [syn] keeps each [::] beside the segments; here it is with the segment that follows. *)
Record seg : Type := mk_seg { seg_id : string; seg_args : list tt; seg_sp : seg_at }.
(** [syn::Path] *)
Record path : Type := mk_path { p_lead : bool; p_segs : list seg }.

Definition p_idents (p : path) : list string := map seg_id (p_segs p).

(** [ToTokens for Path] *)
Definition colons (s : seg) : list tt := match sg_colons (seg_sp s) with Some (a, b) => [TPunct ":" a; TPunct ":" b] | None => qcc end.
Definition seg_toks (s : seg) : list tt := TIdent (seg_id s) (sg_ident (seg_sp s)) :: seg_args s.
Definition path_toks (p : path) : list tt :=
  match p_segs p with
  | [] => if p_lead p then qcc else []   (* [syn] has no such path *)
  | s :: r => (if p_lead p then colons s else []) ++ seg_toks s ++ flat_map (fun s => colons s ++ seg_toks s) r
  end.

(** utils/mod.rs 13-18 *)
Definition path_is_end_of (p : path) (target : string) : bool :=
  match rev (p_segs p) with
  | [] => false
  | s :: _ => String.eqb (seg_id s) target
  end.

(** [path == &parse_quote!(hooq::NAME)] (inert_attr/parse.rs 125-147): no leading [::], exactly these
    segments, no generic arguments. *)
Definition seg_is (s : seg) (name : string) : bool :=
  String.eqb (seg_id s) name && match seg_args s with [] => true | _ => false end.
Definition path_is_hooq (p : path) (name : string) : bool :=
  negb (p_lead p) &&
  match p_segs p with
  | [s1; s2] => seg_is s1 "hooq" && seg_is s2 name
  | _ => false
  end.

(** [Path::get_ident]: a single segment, no leading [::], no arguments *)
Definition path_get_ident (p : path) : option string :=
  match p_lead p, p_segs p with
  | false, [s] => match seg_args s with [] => Some (seg_id s) | _ => None end
  | _, _ => None
  end.
(** [Path::is_ident] *)
Definition path_is_ident (p : path) (name : string) : bool :=
  match path_get_ident p with Some s => String.eqb s name | None => false end.

(** The value of [name = value] in an attribute.  The code distinguishes paths and string literals
    (inert_attr/parse.rs 97-113) and otherwise only prints the expression, so other expressions are tokens. *)
Inductive mvalue : Type :=
| VPath (p : path)
| VStr (s : string) (sp : span)
| VOther (ts : list tt).
Definition mvalue_toks (v : mvalue) : list tt :=
  match v with VPath p => path_toks p | VStr s sp => [TLit (LStr s) sp] | VOther ts => ts end.

(** [syn::Meta] *)
Inductive meta : Type :=
| MPath (p : path)
| MList (p : path) (d : delim) (ts : list tt) (sp : span)
| MNameValue (p : path) (v : mvalue).
Definition meta_path (m : meta) : path :=
  match m with MPath p | MList p _ _ _ | MNameValue p _ => p end.
Definition meta_toks (m : meta) : list tt :=
  match m with
  | MPath p => path_toks p
  | MList p d ts sp => path_toks p ++ [TGroup d ts sp]
  | MNameValue p v => path_toks p ++ qp "=" :: mvalue_toks v
  end.

(** [syn::Attribute]; [at_inner] for [#![...]]. *)
Record attr : Type := mk_attr { at_inner : bool; at_sp : span; at_meta : meta }.
Definition attr_toks (a : attr) : list tt :=
  TPunct "#" (at_sp a) :: (if at_inner a then [TPunct "!" (at_sp a)] else []) ++
  [TGroup Bracket (meta_toks (at_meta a)) (at_sp a)].
Definition outer_toks (l : list attr) : list tt :=
  flat_map attr_toks (filter (fun a => negb (at_inner a)) l).
Definition inner_toks (l : list attr) : list tt :=
  flat_map attr_toks (filter at_inner l).

(** [syn::ReturnType] as far as function_info.rs 83-91 looks at it. *)
Inductive ret_ty : Type := RetNone | RetPath (p : path) | RetOther.

(** [syn::Signature]: name, output type and the printed signature. *)
Record sig : Type := mk_sig { sg_name : string; sg_out : ret_ty; sg_toks : list tt }.
