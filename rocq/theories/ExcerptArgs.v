(** The options of the excerpt macros (utils/source_excerpt_macros.rs).  *)
From Coq Require Import String Ascii Bool Arith NArith List.
From Verif Require Import Base Tokens Excerpt.
Import ListNotations.
Open Scope string_scope.
Open Scope list_scope.

(** 12-16 *)
Inductive padding : Type := PadTop | PadBottom | PadBoth.
(** 20-26 *)
Record margs (X : Type) : Type := mk_margs {
  ma_lines : option nat; ma_trunc : option (option nat); ma_show : bool; ma_pad : option padding; ma_expr : X }.
Arguments mk_margs {X}.
Arguments ma_lines {X}. Arguments ma_trunc {X}. Arguments ma_show {X}. Arguments ma_pad {X}. Arguments ma_expr {X}.

(** [input.parse::<Lit>()]: a literal, [true]/[false] or a negated literal.  The last two are, like every literal
    that is neither a string nor an integer fitting a usize, [LOther]. *)
Definition parse_lit (ts : list tt) : option (lit * list tt) :=
  match ts with
  | TLit l _ :: r => Some (l, r)
  | TIdent s _ :: r => if String.eqb s "true" || String.eqb s "false" then Some (LOther s, r) else None
  | _ :: TLit (LStr _) _ :: _ => None
  | p :: TLit _ _ :: r => if is_punct "-" p then Some (LOther "-", r) else None
  | _ => None
  end.

(** 41-61: [@name] or [@name = lit] *)
Definition parse_opt (ts : list tt) : option (string * option lit * list tt) :=
  match ts with
  | a :: TIdent n _ :: r =>
      if is_punct "@" a then
        match r with
        | p :: r' =>
            if is_punct "," p || is_punct ";" p then Some (n, None, r)
            else if is_punct "=" p then
              match parse_lit r' with Some (l, r'') => Some (n, Some l, r'') | None => None end
            else None
        | [] => None
        end
      else None
  | _ => None
  end.

(** the four mutable locals of lines 30-33 *)
Definition opts := (option nat * option (option nat) * bool * option padding)%type.

(** 76-155 *)
Definition apply_opt (o : opts) (name : string) (v : option lit) : res opts :=
  let '(ln, tr, sh, pd) := o in
  if String.eqb name "excerpt_line" then
    match v with
    | Some (LUsize n) => Ok (Some n, tr, sh, pd)
    | _ => Err (ErrOption name)
    end
  else if String.eqb name "truncate_str" then
    match v with
    | Some (LUsize n) => Ok (ln, Some (Some n), sh, pd)
    | Some _ => Err (ErrOption name)
    | None => Ok (ln, Some None, sh, pd)
    end
  else if String.eqb name "show_line_num" then Ok (ln, tr, true, pd)
  else if String.eqb name "padding" then
    match v with
    | Some (LStr s) =>
        if String.eqb s "top" then Ok (ln, tr, sh, Some PadTop)
        else if String.eqb s "bottom" then Ok (ln, tr, sh, Some PadBottom)
        else if String.eqb s "both" then Ok (ln, tr, sh, Some PadBoth)
        else Err (ErrOption name)
    | Some _ => Err (ErrOption name)
    | None => Ok (ln, tr, sh, Some PadBoth)
    end
  else Err (ErrOption name).

(** 157-159 *)
Definition skip_comma (ts : list tt) : list tt :=
  match ts with t :: r => if is_punct "," t then r else ts | [] => [] end.

(** 63-160: the options and the tokens that are left; every turn takes at least one token, so the number of tokens is
    enough fuel *)
Fixpoint opts_loop (fuel : nat) (o : opts) (ts : list tt) : res (opts * list tt) :=
  match fuel with
  | 0 => Ok (o, ts)
  | S fuel' =>
      match ts with
      | [] => Ok (o, [])
      | t :: r =>
          if is_punct ";" t then Ok (o, r)
          else match parse_opt ts with
               | None => Ok (o, ts)
               | Some (name, v, rest) => bindR (apply_opt o name v) (fun o' => opts_loop fuel' o' (skip_comma rest))
               end
      end
  end.

Section Macros.
  Variable X : Type.
  (** [parse2::<Expr>] of what is left (162) *)
  Variable parse_expr : list tt -> option X.
  (** 28-172 *)
  Definition parse_margs (ts : list tt) : res (margs X) :=
    bindR (opts_loop (length ts) (None, None, false, None) ts) (fun '(ln, tr, sh, pd, rest) =>
    match parse_expr rest with
    | Some e => Ok (mk_margs ln tr sh pd e)
    | None => Err (ErrParse "expression")
    end).
End Macros.

Section Entry.
  Variable escape : text -> text.
  Variable parse_expr : list tt -> option pexpr.

  (** 174-182; the truncated expression *)
  Definition truncate_lit_str_macro (ts : list tt) : res pexpr :=
    bindR (parse_margs pexpr parse_expr ts) (fun a =>
    Ok (truncate_expr escape (match ma_trunc a with Some o => o | None => None end) (ma_expr a))).

  (** 202-214 *)
  Definition pad_settings (s : pretty_settings) (p : option padding) : pretty_settings :=
    match p with
    | Some PadTop => mk_ps (ps_show s) true (ps_bottom s)
    | Some PadBottom => mk_ps (ps_show s) (ps_top s) true
    | Some PadBoth => mk_ps (ps_show s) true true
    | None => s
    end.
  (** 184-219 *)
  Definition pretty_settings_of (a : margs pexpr) : pretty_settings :=
    pad_settings (mk_ps (ma_show a) false false) (ma_pad a).
  Definition pretty_stringify (ts : list tt) : res text :=
    bindR (parse_margs pexpr parse_expr ts) (fun a =>
    let r := into_pretty_str (ma_expr a) (pretty_settings_of a) in
    Ok (pad_wrap r (pr_body r))).

  (** 221-236 *)
  Definition one_line_stringify (ts : list tt) : res text :=
    bindR (parse_margs pexpr parse_expr ts) (fun a =>
    Ok (one_line_pretty_str escape (ma_expr a)
          (match ma_trunc a with Some v => Truncate v | None => NoTruncation end))).

  (** 247-273 *)
  Definition excerpt_setting_of (a : margs pexpr) : excerpt_setting :=
    let d := excerpt_default in
    mk_es (match ma_lines a with Some n => n | None => es_max d end)
          (match ma_trunc a with Some v => Truncate v | None => es_trunc d end)
          (pad_settings (if ma_show a then mk_ps true (ps_top (es_pretty d)) (ps_bottom (es_pretty d))
                         else es_pretty d) (ma_pad a)).
  (** 238-276 *)
  Definition excerpted_pretty_stringify (ts : list tt) : res text :=
    bindR (parse_margs pexpr parse_expr ts) (fun a =>
    excerpted_pretty_str escape (ma_expr a) (excerpt_setting_of a)).
End Entry.
