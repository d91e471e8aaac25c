(** Specification of the options of the excerpt macros (C36).  *)
From Coq Require Import String Ascii Bool Arith List.
From Verif Require Import Base Tokens ExcerptArgs.
Import ListNotations.
Open Scope string_scope.
Open Scope list_scope.

(** what an option asks for *)
Inductive setting : Type :=
| SLines (n : nat) | STrunc (n : option nat) | SShow | SPad (p : padding).
(** a value as written: a literal, [true] or [false], or a negated number *)
Inductive wval : Type := WLit (l : lit) | WBool (b : bool) | WNeg (n : nat).
Definition wval_toks (v : wval) (sp : span) : list tt :=
  match v with
  | WLit l => [TLit l sp]
  | WBool b => [TIdent (if b then "true" else "false") sp]
  | WNeg n => [TPunct "-" sp; TLit (LUsize n) sp]
  end.
(** the options of the documentation (lib.rs 77-82, 120-126, 175-184), a value given to [show_line_num] being ignored *)
Inductive means : string -> option wval -> setting -> Prop :=
| means_lines : forall n, means "excerpt_line" (Some (WLit (LUsize n))) (SLines n)
| means_trunc : forall n, means "truncate_str" (Some (WLit (LUsize n))) (STrunc (Some n))
| means_trunc_bare : means "truncate_str" None (STrunc None)
| means_show : forall v, means "show_line_num" v SShow
| means_top : means "padding" (Some (WLit (LStr "top"))) (SPad PadTop)
| means_bottom : means "padding" (Some (WLit (LStr "bottom"))) (SPad PadBottom)
| means_both : means "padding" (Some (WLit (LStr "both"))) (SPad PadBoth)
| means_pad_bare : means "padding" None (SPad PadBoth).

(** an option as written: name, value, whether a comma follows; where it was written *)
Record wopt : Type := mk_wopt { wo_name : string; wo_val : option wval; wo_comma : bool; wo_at : span }.
Definition wopt_toks (o : wopt) : list tt :=
  [TPunct "@" (wo_at o); TIdent (wo_name o) (wo_at o)] ++
  match wo_val o with Some v => TPunct "=" (wo_at o) :: wval_toks v (wo_at o) | None => [] end ++
  if wo_comma o then [TPunct "," (wo_at o)] else [].
(** a macro input: the options, maybe a semicolon, the expression *)
Definition input_toks (os : list wopt) (semi : option span) (e : list tt) : list tt :=
  flat_map wopt_toks os ++ match semi with Some sp => [TPunct ";" sp] | None => [] end ++ e.
(** an option without value is followed by a comma, or by the semicolon when it is the last one *)
Fixpoint separated (os : list wopt) (semi : option span) : Prop :=
  match os with
  | [] => True
  | o :: r => (wo_val o = None -> wo_comma o = true \/ (r = [] /\ semi <> None)) /\ separated r semi
  end.
(** an expression is not empty and begins neither with [@] nor with a comma or semicolon *)
Definition expr_like (e : list tt) : Prop :=
  exists t r, e = t :: r /\ is_punct "@" t = false /\ is_punct ";" t = false /\ is_punct "," t = false.

(** the last setting picked by [f], if any *)
Fixpoint last_picked {A} (f : setting -> option A) (l : list setting) : option A :=
  match l with
  | [] => None
  | s :: r => match last_picked f r with Some a => Some a | None => f s end
  end.
Definition pick_lines (s : setting) : option nat := match s with SLines n => Some n | _ => None end.
Definition pick_trunc (s : setting) : option (option nat) := match s with STrunc n => Some n | _ => None end.
Definition pick_pad (s : setting) : option padding := match s with SPad p => Some p | _ => None end.
