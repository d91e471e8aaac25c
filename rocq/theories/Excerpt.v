(** Pretty printing and excerpting of expressions (utils/source_excerpt.rs).  *)
From Coq Require Import String Ascii Bool Arith NArith List.
From Verif Require Import Base Tokens.
Import ListNotations.
Open Scope string_scope.
Open Scope list_scope.

(** A [char] is its code point, a [String]/[&str] the list of its chars. *)
Definition char := N.
Definition text := list char.
Definition nl : char := 10%N.
Definition cr : char := 13%N.
Definition sp : char := 32%N.
(** the chars of an ASCII string literal of the source *)
Fixpoint chars (s : string) : text :=
  match s with EmptyString => [] | String a s' => N_of_ascii a :: chars s' end.

(** ** [std] functions on strings *)
(** [str::split('\n')] *)
Fixpoint split_nl (s : text) : list text :=
  match s with
  | [] => [[]]
  | c :: s' =>
      if N.eqb c nl then [] :: split_nl s'
      else match split_nl s' with l :: r => (c :: l) :: r | [] => [[c]] end
  end.
(** a line without its carriage return *)
Fixpoint strip_cr (l : text) : text :=
  match l with
  | [] => []
  | [c] => if N.eqb c cr then [] else [c]
  | c :: l' => c :: strip_cr l'
  end.
(** [str::lines]: lines ended by '\n' or "\r\n"; the last line may lack its ending, and is absent when empty.
    A carriage return not followed by '\n' at the very end is kept. *)
Fixpoint lines_of (ls : list text) : list text :=
  match ls with
  | [] => []
  | [l] => match l with [] => [] | _ => [l] end
  | l :: r => strip_cr l :: lines_of r
  end.
Definition lines (s : text) : list text := lines_of (split_nl s).
(** [[..].join(sep)] *)
Fixpoint join (sepr : text) (ls : list text) : text :=
  match ls with
  | [] => []
  | [l] => l
  | l :: r => l ++ sepr ++ join sepr r
  end.
(** [char::is_whitespace] (the White_Space property) *)
Definition is_ws (c : char) : bool :=
  ((9 <=? c) && (c <=? 13) || (c =? 32) || (c =? 133) || (c =? 160) || (c =? 5760)
   || (8192 <=? c) && (c <=? 8202) || (c =? 8232) || (c =? 8233) || (c =? 8239)
   || (c =? 8287) || (c =? 12288))%N.
Fixpoint trim_start (s : text) : text :=
  match s with c :: s' => if is_ws c then trim_start s' else s | [] => [] end.
(** [str::trim] *)
Definition trim (s : text) : text := rev (trim_start (rev (trim_start s))).
(** [{n}] of a usize *)
Fixpoint uint_chars (u : Decimal.uint) : text :=
  match u with
  | Decimal.Nil => []
  | Decimal.D0 u => 48%N :: uint_chars u | Decimal.D1 u => 49%N :: uint_chars u
  | Decimal.D2 u => 50%N :: uint_chars u | Decimal.D3 u => 51%N :: uint_chars u
  | Decimal.D4 u => 52%N :: uint_chars u | Decimal.D5 u => 53%N :: uint_chars u
  | Decimal.D6 u => 54%N :: uint_chars u | Decimal.D7 u => 55%N :: uint_chars u
  | Decimal.D8 u => 56%N :: uint_chars u | Decimal.D9 u => 57%N :: uint_chars u
  end.
Definition dec_chars (n : nat) : text := uint_chars (Nat.to_uint n).
(** [{n: >w$}] *)
Definition right_align (w : nat) (s : text) : text := repeat sp (w - length s) ++ s.

(** ** Positioned tokens *)
(** A token of the expression with the place it was written at: line, column (from 1, in chars) and the column just
    after it.  [PStr] is a string literal that [Fold] reaches ([Lit::Str] in the expression), with its value; string
    literals inside the tokens of macro invocations are not reached and are plain leaves. *)
Inductive ptt : Type :=
| PLeaf (txt : text) (line col ecol : nat)
| PStr (value : text) (txt : text) (line col ecol : nat)
| PGroup (d : delim) (oline ocol : nat) (kids : list ptt) (cline cecol : nat).

(** source_excerpt.rs 406-422 *)
Definition delim_start (d : delim) : text :=
  match d with Parenth => chars "(" | Brace => chars "{" | Bracket => chars "[" | NoDelim => [] end.
Definition delim_end (d : delim) : text :=
  match d with Parenth => chars ")" | Brace => chars "}" | Bracket => chars "]" | NoDelim => [] end.

(** ** Pretty printing, 290-404 *)
(** [current_line] and [current_column] *)
Definition cursor := (option nat * option nat)%type.
(** 304-341 *)
Definition add_tt (txt : text) (line col ecol : nat) (cur : cursor) (is_top : bool) : text * cursor :=
  let top := if is_top then chars "    " else [] in
  let same_line := match snd cur with
                   | Some c => if (c <? col)%nat then repeat sp (col - c) else []
                   | None => []
                   end in
  let gap := match fst cur with
             | Some l => if (l <? line)%nat then repeat nl (line - l) ++ repeat sp (col - 1) else same_line
             | None => same_line
             end in
  (top ++ gap ++ txt, (Some line, Some ecol)).

(** 343-403, the loop over a token stream; [pretty_tt] is its body *)
Fixpoint pretty_tt (t : ptt) (cur : cursor) (is_top : bool) : text * cursor :=
  match t with
  | PLeaf txt l c e | PStr _ txt l c e => add_tt txt l c e cur is_top
  | PGroup d ol oc kids cl ce =>
      let '(s1, cur1) := add_tt (delim_start d) ol oc (oc + 1) cur is_top in
      let '(s2, cur2) := (fix go (l : list ptt) (cur : cursor) : text * cursor :=
                            match l with
                            | [] => ([], cur)
                            | t :: l' => let '(a, cur') := pretty_tt t cur false in
                                         let '(b, cur'') := go l' cur' in (a ++ b, cur'')
                            end) kids cur1 in
      let '(s3, cur3) := add_tt (delim_end d) cl (ce - 1) ce cur2 false in
      (s1 ++ s2 ++ s3, cur3)
  end.
Fixpoint pretty_rest (l : list ptt) (cur : cursor) : text * cursor :=
  match l with
  | [] => ([], cur)
  | t :: l' => let '(a, cur') := pretty_tt t cur false in
               let '(b, cur'') := pretty_rest l' cur' in (a ++ b, cur'')
  end.
(** the whole stream of the expression: the first token is the top one *)
Definition pretty_inner (l : list ptt) : text :=
  match l with
  | [] => []
  | t :: l' => let '(a, cur) := pretty_tt t (None, None) true in a ++ fst (pretty_rest l' cur)
  end.

(** 17-41 *)
Record pretty_res : Type := mk_pres { pr_body : text; pr_top : option text; pr_bottom : option text }.
Definition pad_wrap (r : pretty_res) (s : text) : text :=
  match pr_top r with Some t => t | None => [] end ++ s ++ match pr_bottom r with Some t => t | None => [] end.

(** 424-449 *)
Fixpoint prefix_lines (w : nat) (index : nat) (punct : char) (ls : list text) : list text :=
  match ls with
  | [] => []
  | l :: r => (right_align w (dec_chars index) ++ [punct] ++ l) :: prefix_lines w (S index) 124%N r
  end.
Definition add_line_prefix (s : text) (start_line end_line : nat) (top bottom : bool) : pretty_res :=
  let w := Nat.max (length (dec_chars end_line)) 4 in
  mk_pres (join [nl] (prefix_lines w start_line 62%N (lines s)))
          (if top then Some (repeat sp w ++ [124%N; nl]) else None)
          (if bottom then Some ([nl] ++ repeat sp w ++ [124%N]) else None).

(** An expression: its tokens, and the lines its span starts and ends at.  ([Span::join] may be unavailable, then
    [syn] takes the span of the first token; both cases are covered as the lines are independent of the tokens.) *)
Record pexpr : Type := mk_pexpr { pe_toks : list ptt; pe_start : nat; pe_end : nat }.

(** 95-100 *)
Record pretty_settings : Type := mk_ps { ps_show : bool; ps_top : bool; ps_bottom : bool }.
(** 44-76 *)
Definition into_pretty_str (e : pexpr) (s : pretty_settings) : pretty_res :=
  let r := pretty_inner (pe_toks e) in
  if ps_show s then add_line_prefix r (pe_start e) (pe_end e) (ps_top s) (ps_bottom s)
  else mk_pres r (if ps_top s then Some [nl] else None) (if ps_bottom s then Some [nl] else None).

(** ** Truncation, 215-288 *)
Record folder : Type := mk_folder { fo_max : nat; fo_start : nat; fo_end : nat }.
Definition folder_default : folder := mk_folder 10 4 4.
Definition folder_new (max_len : nat) : folder :=
  if (max_len <? 2)%nat then mk_folder max_len 0 0
  else let rest := max_len - 2 in
       let start := Nat.div rest 2 in
       mk_folder max_len start (rest - start).
(** 264-277 *)
Definition truncate_line (f : folder) (l : text) : text :=
  if (fo_max f <? length l)%nat
  then firstn (fo_start f) l ++ chars ".." ++ rev (firstn (fo_end f) (rev l))
  else l.
(** 255-280 *)
Definition truncate_value (f : folder) (v : text) : text :=
  join [nl] (map (truncate_line f) (split_nl v)).
(** 286 *)
Definition folder_of (max_len : option nat) : folder :=
  match max_len with Some n => folder_new n | None => folder_default end.

Section Truncate.
  (** how a string literal with the given value is written ([LitStr::new] then [to_string]; proc_macro2) *)
  Variable escape : text -> text.
  (** 253-288: every reachable string literal gets the truncated value, in place *)
  Fixpoint truncate_tt (f : folder) (t : ptt) : ptt :=
    match t with
    | PLeaf _ _ _ _ => t
    | PStr v _ l c e => let v' := truncate_value f v in PStr v' (escape v') l c e
    | PGroup d ol oc kids cl ce => PGroup d ol oc (map (truncate_tt f) kids) cl ce
    end.
  Definition truncate_expr (max_len : option nat) (e : pexpr) : pexpr :=
    mk_pexpr (map (truncate_tt (folder_of max_len)) (pe_toks e)) (pe_start e) (pe_end e).

  (** 80-93 *)
  Inductive trunc : Type := NoTruncation | Truncate (max_len : option nat).
  Definition apply_trunc (t : trunc) (e : pexpr) : pexpr :=
    match t with NoTruncation => e | Truncate n => truncate_expr n e end.

  (** 125-145 *)
  Definition one_line_pretty_str (e : pexpr) (t : trunc) : text :=
    join [sp] (map trim (lines (pr_body (into_pretty_str (apply_trunc t e) (mk_ps false false false))))).

  (** 102-121 *)
  Record excerpt_setting : Type := mk_es { es_max : nat; es_trunc : trunc; es_pretty : pretty_settings }.
  Definition excerpt_default : excerpt_setting := mk_es 5 (Truncate None) (mk_ps true false true).

  (** 147-213 *)
  Definition excerpted_pretty_str (e : pexpr) (s : excerpt_setting) : res text :=
    if (es_max s <? 1)%nat then Err ErrExcerptLine
    else
      let r := into_pretty_str (apply_trunc (es_trunc s) e) (es_pretty s) in
      let ls := lines (pr_body r) in
      if Nat.eqb (es_max s) 1 then Ok (pad_wrap r (last ls []))
      else if (length ls <=? 2)%nat then Ok (pad_wrap r (pr_body r))
      else
        let tail_lines := rev (firstn (es_max s - 1) (rev (tl ls))) in
        let out := hd [] ls :: (if (es_max s <? length ls)%nat then [chars "..."] else []) ++ tail_lines in
        Ok (pad_wrap r (join [nl] out)).
End Truncate.
