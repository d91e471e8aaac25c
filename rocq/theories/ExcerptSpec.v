(** Specification of the excerpt functions: statements about texts that do not use the functions of the model.  *)
From Coq Require Import String Ascii Bool Arith NArith List.
From Verif Require Import Base Tokens Excerpt.
Import ListNotations.
Open Scope string_scope.
Open Scope list_scope.

Definition no_nl (s : text) : Prop := ~ In nl s.

(** the lines [ls] written one under the other *)
Fixpoint stacked (ls : list text) : text :=
  match ls with
  | [] => []
  | l :: r => match r with [] => l | _ => l ++ nl :: stacked r end
  end.

(** ** Truncation (C31) *)
Definition dots : text := chars "..".
(** [short n l l']: [l'] is [l] shortened to [n] characters *)
Inductive short (n : nat) (l : text) : text -> Prop :=
| short_same : length l <= n -> short n l l
| short_cut : forall pre mid suf,
    length l > n -> l = pre ++ mid ++ suf ->
    length pre + 2 + length suf = n -> length pre <= length suf <= S (length pre) ->
    short n l (pre ++ dots ++ suf).

(** [v'] is [v] with every line shortened *)
Definition shortened (n : nat) (v v' : text) : Prop :=
  exists ls ls', v = stacked ls /\ v' = stacked ls' /\ ls <> [] /\ Forall no_nl ls /\ Forall2 (short n) ls ls'.

(** a token tree with its string literals shortened, everything else the same *)
Inductive tt_shortened (escape : text -> text) (n : nat) : ptt -> ptt -> Prop :=
| ts_leaf : forall t l c e, tt_shortened escape n (PLeaf t l c e) (PLeaf t l c e)
| ts_str : forall v v' t l c e, shortened n v v' -> tt_shortened escape n (PStr v t l c e) (PStr v' (escape v') l c e)
| ts_group : forall d ol oc kids kids' cl ce, Forall2 (tt_shortened escape n) kids kids' ->
    tt_shortened escape n (PGroup d ol oc kids cl ce) (PGroup d ol oc kids' cl ce).

(** ** Layout (C32) *)
(** a written token: its text, line, first column *)
Record placed : Type := mk_placed { pl_text : text; pl_line : nat; pl_col : nat }.
(** the written tokens of a tree, delimiters included, in order *)
Fixpoint written (t : ptt) : list placed :=
  match t with
  | PLeaf x l c _ | PStr _ x l c _ => [mk_placed x l c]
  | PGroup d ol oc kids cl ce =>
      let inner := flat_map written kids in
      match d with
      | Parenth => mk_placed (chars "(") ol oc :: inner ++ [mk_placed (chars ")") cl (ce - 1)]
      | Brace => mk_placed (chars "{") ol oc :: inner ++ [mk_placed (chars "}") cl (ce - 1)]
      | Bracket => mk_placed (chars "[") ol oc :: inner ++ [mk_placed (chars "]") cl (ce - 1)]
      | NoDelim => inner
      end
  end.
Definition written_all (l : list ptt) : list placed := flat_map written l.

(** columns start at 1, the end column of a leaf is where its text ends, and an invisible group (as made by
    macro_rules around an argument) begins where its first token begins and ends where its last one ends *)
Fixpoint sized (t : ptt) : Prop :=
  match t with
  | PLeaf x _ c e | PStr _ x _ c e => 1 <= c /\ e = c + length x /\ no_nl x
  | PGroup d ol oc kids cl ce =>
      fold_right (fun k p => sized k /\ p) True kids /\
      match d with
      | NoDelim =>
          exists first last front back,
            flat_map written kids = first :: back /\ flat_map written kids = front ++ [last] /\
            ol = pl_line first /\ oc = pl_col first /\
            cl = pl_line last /\ ce = pl_col last + length (pl_text last)
      | _ => 1 <= oc /\ 2 <= ce
      end
  end.
(** one token is written after another one *)
Definition after (a b : placed) : Prop :=
  pl_line a < pl_line b \/ pl_line a = pl_line b /\ pl_col a + length (pl_text a) <= pl_col b.
(** tokens in the order of the file *)
Fixpoint in_order (l : list placed) : Prop :=
  match l with
  | [] => True
  | a :: r => match r with [] => True | b :: _ => after a b end /\ in_order r
  end.

(** [before] ends on line [line] (from 0), at column [col] (from 0) *)
Fixpoint end_pos (before : text) (line col : nat) : nat * nat :=
  match before with
  | [] => (line, col)
  | c :: r => if N.eqb c nl then end_pos r (S line) 0 else end_pos r line (S col)
  end.

(** the text and line of everything printed for a tree, an invisible delimiter being an empty text *)
Fixpoint rows (t : ptt) : list (text * nat) :=
  match t with
  | PLeaf x l _ _ | PStr _ x l _ _ => [(x, l)]
  | PGroup d ol _ kids cl _ =>
      let '(o, c) := match d with
                     | Parenth => (chars "(", chars ")") | Brace => (chars "{", chars "}")
                     | Bracket => (chars "[", chars "]") | NoDelim => ([], [])
                     end in
      (o, ol) :: flat_map rows kids ++ [(c, cl)]
  end.
Fixpoint line_order (l : list (text * nat)) : Prop :=
  match l with
  | [] => True
  | a :: r => match r with [] => True | b :: _ => snd a <= snd b end /\ line_order r
  end.

Definition blank (s : text) : Prop := forall c, In c s -> c = sp \/ c = nl.
(** the texts in order with only blanks around them *)
Inductive spaced : list text -> text -> Prop :=
| spaced_nil : forall g, blank g -> spaced [] g
| spaced_cons : forall g t r s, blank g -> spaced r s -> spaced (t :: r) (g ++ t ++ s).

(** ** Excerpt (C33) *)
(** The lines of a text, as Rust counts them: a line ends with a line feed, a carriage return before it belongs to the
    ending, and what follows the last line feed is a line if there is something. *)
Inductive text_lines : text -> list text -> Prop :=
| tl_nil : text_lines [] []
| tl_last : forall l, l <> [] -> no_nl l -> text_lines l [l]
| tl_lf : forall l s ls, no_nl l -> last l 0%N <> cr -> text_lines s ls -> text_lines (l ++ nl :: s) (l :: ls)
| tl_crlf : forall l s ls, no_nl l -> text_lines s ls -> text_lines (l ++ cr :: nl :: s) (l :: ls).
Definition last_lines (k : nat) (ls : list text) : list text := skipn (length ls - k) ls.
Definition excerpt_lines (n : nat) (ls : list text) : list text :=
  if (length ls <=? n)%nat then ls
  else match n with
       | 1 => last_lines 1 ls
       | _ => firstn 1 ls ++ [chars "..."] ++ last_lines (n - 1) ls
       end.

(** ** Line numbers (C34) *)
(** the number a text of decimal digits stands for *)
Definition digit_step (n : nat) (c : char) : nat := 10 * n + (N.to_nat c - 48).
Definition digits_value (s : text) : nat := fold_left digit_step s 0.
Definition is_digit (c : char) : Prop := (48 <= c <= 57)%N.
(** [m] is the number [n] right-aligned in [w] columns *)
Definition right_aligned (w n : nat) (m : text) : Prop :=
  exists pad ds, m = pad ++ ds /\ Forall (eq sp) pad /\ ds <> [] /\ Forall is_digit ds /\ digits_value ds = n /\
  (hd 48%N ds = 48%N -> length ds = 1) /\ length m = w.
(** line [i] of the source lines from [first], with its margin of width [w] *)
Definition numbered_line (w first : nat) (i : nat) (l out : text) : Prop :=
  exists m, out = m ++ (if Nat.eqb i 0 then 62 else 124)%N :: l /\ right_aligned w (first + i) m.

(** ** One line (C35) *)
(** the characters with the property White_Space of Unicode *)
Definition white : list char :=
  [9; 10; 11; 12; 13; 32; 133; 160; 5760; 8192; 8193; 8194; 8195; 8196; 8197; 8198; 8199; 8200; 8201; 8202; 8232; 8233; 8239; 8287; 12288]%N.
Definition is_white (c : char) : bool := existsb (N.eqb c) white.
Definition visible (s : text) : text := filter (fun c => negb (is_white c)) s.
(** [l'] is [l] without the white space at both ends *)
Definition trimmed (l l' : text) : Prop :=
  exists a b, l = a ++ l' ++ b /\ Forall (fun c => In c white) a /\ Forall (fun c => In c white) b /\
    (l' = [] \/ ~ In (hd 0%N l') white /\ ~ In (last l' 0%N) white).
(** texts beside each other *)
Fixpoint beside (ls : list text) : text :=
  match ls with
  | [] => []
  | l :: r => match r with [] => l | _ => l ++ sp :: beside r end
  end.
