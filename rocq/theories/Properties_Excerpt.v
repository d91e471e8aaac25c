(** C31-C36: excerpts of source code.  *)
From Coq Require Import String Ascii Bool Arith NArith Lia List.
From Verif Require Import Base Tokens Excerpt ExcerptArgs ExcerptSpec ExcerptArgsSpec ExcerptProofs LayoutProofs ExcerptArgsProofs.
Import ListNotations.
Open Scope string_scope.
Open Scope list_scope.

(** ** C31 *)
(** every string literal keeps its lines, each shortened to [n] characters; the rest of the expression is unchanged *)
Theorem C31_truncation_partial : forall escape o e,
  let n := match o with Some n => n | None => 10 end in
  2 <= n ->
  Forall2 (tt_shortened escape n) (pe_toks e) (pe_toks (truncate_expr escape o e)) /\
  pe_start (truncate_expr escape o e) = pe_start e /\ pe_end (truncate_expr escape o e) = pe_end e.
Proof. exact truncate_expr_shortened. Qed.
Print Assumptions C31_truncation_partial.

Theorem C31_length : forall n l l', 2 <= n -> short n l l' -> length l' = Nat.min n (length l).
Proof. exact short_length. Qed.
Print Assumptions C31_length.

Theorem C31_unique : forall n l a b, 2 <= n -> short n l a -> short n l b -> a = b.
Proof. exact short_det. Qed.
Print Assumptions C31_unique.

Theorem C31_idempotent_partial : forall n v, 2 <= n ->
  truncate_value (folder_new n) (truncate_value (folder_new n) v) = truncate_value (folder_new n) v.
Proof. exact truncate_value_idem. Qed.
Print Assumptions C31_idempotent_partial.

(** for [max_len < 2] a longer line becomes [..], which is longer than asked *)
Theorem C31_small_refuted : exists n v, length (truncate_value (folder_new n) v) > n /\ no_nl v /\ n < length v.
Proof. exists 1, (chars "abc"). repeat split; try (vm_compute; lia). Qed.
Print Assumptions C31_small_refuted.

Theorem C31_small : forall n l, n < 2 -> n < length l -> truncate_line (folder_new n) l = dots.
Proof. exact truncate_small. Qed.
Print Assumptions C31_small.

Example C31_ex :
  2 <= 10 /\
  truncate_value (folder_new 10) (chars "0123456789abcdefghijklmnopqrstuvwxyz") = chars "0123..wxyz" /\
  truncate_value (folder_new 5) (chars "0123456789") = chars "0..89" /\
  truncate_value (folder_new 10) (chars "0123456789") = chars "0123456789" /\
  truncate_value (folder_new 4) (chars "abcdef" ++ [nl] ++ chars "ab") = chars "a..f" ++ [nl] ++ chars "ab" /\
  short 5 (chars "0123456789") (chars "0..89").
Proof.
  repeat split; try lia. apply (short_cut 5 (chars "0123456789") (chars "0") (chars "1234567") (chars "89")); simpl; auto; lia.
Qed.

(** ** C32 *)
(** the text of every token exactly once, in order, with only blanks and line breaks between them *)
Theorem C32_every_token : forall ts, spaced (map fst (flat_map rows ts)) (pretty_inner ts).
Proof. exact pretty_spaced. Qed.
Print Assumptions C32_every_token.

(** each token on its line and column *)
Theorem C32_in_place_partial : forall ts first rest,
  written_all ts = first :: rest -> Forall sized ts -> in_order (written_all ts) ->
  forall pre p post, written_all ts = pre ++ p :: post ->
  exists before after,
    pretty_inner ts = before ++ pl_text p ++ after /\
    spaced (map pl_text pre) before /\ spaced (map pl_text post) after /\
    end_pos before 0 0 = (pl_line p - pl_line first,
                          if Nat.eqb (pl_line p) (pl_line first) then 4 + (pl_col p - pl_col first) else pl_col p - 1).
Proof. exact pretty_in_place. Qed.
Print Assumptions C32_in_place_partial.

(** after truncation the end columns no longer match the texts; the lines are still right *)
Theorem C32_lines_partial : forall ts t0 l0 rest,
  flat_map rows ts = (t0, l0) :: rest ->
  line_order (flat_map rows ts) -> Forall (fun r => no_nl (fst r)) (flat_map rows ts) ->
  forall pre t l post, flat_map rows ts = pre ++ (t, l) :: post ->
  exists before after,
    pretty_inner ts = before ++ t ++ after /\
    spaced (map fst pre) before /\ spaced (map fst post) after /\ fst (end_pos before 0 0) = l - l0 /\ l0 <= l.
Proof. exact pretty_lines_in_place. Qed.
Print Assumptions C32_lines_partial.

(** a literal that spans lines pushes what follows it down: the next token is on line 2, not on line 1 *)
Definition multi_line : list ptt :=
  [PLeaf (chars "f") 1 1 2; PLeaf (chars "a" ++ [nl] ++ chars "b") 1 3 2; PLeaf (chars "g") 2 4 5; PLeaf (chars "h") 3 1 2].
Theorem C32_multi_line_refuted : exists ts before after,
  line_order (flat_map rows ts) /\ In (chars "g", 2) (flat_map rows ts) /\
  match flat_map rows ts with (_, l0) :: _ => l0 = 1 | [] => False end /\
  pretty_inner ts = before ++ chars "g" ++ after /\ ~ In (N_of_ascii "g") before /\ fst (end_pos before 0 0) <> 2 - 1.
Proof.
  exists multi_line, (chars "    f a" ++ [nl] ++ chars "b" ++ [nl] ++ chars "   "), ([nl] ++ chars "h").
  repeat split; simpl; auto; try lia; intros H; intuition discriminate.
Qed.
Print Assumptions C32_multi_line_refuted.

(** [f(a,] on line 7 and [  b)] on line 8 *)
Definition two_lines : list ptt :=
  [PLeaf (chars "f") 7 9 10; PGroup Parenth 7 10 [PLeaf (chars "a") 7 11 12; PLeaf (chars ",") 7 12 13; PLeaf (chars "b") 8 3 4] 8 5].
Example C32_ex :
  (exists first rest, written_all two_lines = first :: rest) /\ Forall sized two_lines /\ in_order (written_all two_lines) /\
  pretty_inner two_lines = chars "    f(a," ++ [nl] ++ chars "  b)" /\
  line_order (flat_map rows two_lines) /\ Forall (fun r => no_nl (fst r)) (flat_map rows two_lines).
Proof.
  split; [eexists; eexists; reflexivity|]. split.
  { apply Forall_cons; [|apply Forall_cons; [|apply Forall_nil]]; simpl; unfold no_nl; simpl; intuition (try lia; discriminate). }
  split. { simpl. unfold after. simpl. intuition lia. }
  split; [reflexivity|]. split; [simpl; intuition lia|]. simpl. unfold no_nl.
  repeat (apply Forall_cons; [simpl; intuition discriminate|]). apply Forall_nil.
Qed.

(** ** C33 *)
(** every text has its lines *)
Theorem C33_lines : forall s, exists! ls, text_lines s ls.
Proof. exact text_lines_one. Qed.
Print Assumptions C33_lines.
(** what is shown is the excerpt of the lines, or, when all lines are shown, the text as it is *)
Theorem C33_excerpt : forall escape e s ls,
  1 <= es_max s ->
  let r := into_pretty_str (apply_trunc escape (es_trunc s) e) (es_pretty s) in
  text_lines (pr_body r) ls ->
  exists shown,
    excerpted_pretty_str escape e s =
      Ok (match pr_top r with Some t => t | None => [] end ++ shown ++ match pr_bottom r with Some t => t | None => [] end) /\
    (shown = stacked (excerpt_lines (es_max s) ls) \/ (shown = pr_body r /\ length ls <= es_max s)).
Proof. exact excerpt_text. Qed.
Print Assumptions C33_excerpt.
(** for texts without carriage returns and without a line feed at the end the two are the same *)
Theorem C33_exact : forall escape e s ls,
  1 <= es_max s ->
  let r := into_pretty_str (apply_trunc escape (es_trunc s) e) (es_pretty s) in
  pr_body r = stacked ls -> ls <> [] -> Forall no_nl ls -> Forall no_cr ls -> last ls [] <> [] ->
  excerpted_pretty_str escape e s =
    Ok (match pr_top r with Some t => t | None => [] end ++ stacked (excerpt_lines (es_max s) ls) ++
        match pr_bottom r with Some t => t | None => [] end).
Proof. exact excerpt_exact. Qed.
Print Assumptions C33_exact.

Theorem C33_zero : forall escape e s, es_max s = 0 -> excerpted_pretty_str escape e s = Err ErrExcerptLine.
Proof. intros escape e s H. unfold excerpted_pretty_str. rewrite H. reflexivity. Qed.
Print Assumptions C33_zero.

Definition abcd : list text := [chars "a"; chars "b"; chars "c"; chars "d"].
Example C33_ex :
  excerpt_lines 2 abcd = [chars "a"; chars "..."; chars "d"] /\
  excerpt_lines 3 abcd = [chars "a"; chars "..."; chars "c"; chars "d"] /\
  excerpt_lines 4 abcd = abcd /\ excerpt_lines 1 abcd = [chars "d"] /\
  (let e := mk_pexpr [PLeaf (chars "a") 1 1 2; PLeaf (chars "b") 2 1 2; PLeaf (chars "c") 3 1 2; PLeaf (chars "d") 4 1 2] 1 4 in
   pr_body (into_pretty_str e (mk_ps false false false)) = stacked ((chars "    a") :: tl abcd) /\
   excerpted_pretty_str (fun x => x) e (mk_es 2 NoTruncation (mk_ps false false true)) =
   Ok (stacked [chars "    a"; chars "..."; chars "d"; []])).
Proof. repeat split. Qed.

(** lines ending in a line feed, in CR LF, and a last one without ending *)
Example C33_ex_lines : text_lines ([97; 10; 98; 13; 10; 99; 13])%N [[97]; [98]; [99; 13]]%N.
Proof.
  apply (tl_lf [97%N]); [intros [E|[]]; discriminate|discriminate|]. apply (tl_crlf [98%N]); [intros [E|[]]; discriminate|].
  apply tl_last; [discriminate|]. intros [E|[E|[]]]; discriminate.
Qed.

(** ** C34 *)
Theorem C34_numbers_partial : forall s first last_line top bottom,
  first + length (lines s) <= S last_line ->
  let w := Nat.max 4 (length (dec_chars last_line)) in
  exists out,
    pr_body (add_line_prefix s first last_line top bottom) = stacked out /\
    length out = length (lines s) /\
    (forall i, i < length out -> numbered_line w first i (nth i (lines s) []) (nth i out [])) /\
    pr_top (add_line_prefix s first last_line top bottom) = (if top then Some (repeat sp w ++ [124%N; nl]) else None) /\
    pr_bottom (add_line_prefix s first last_line top bottom) = (if bottom then Some (nl :: repeat sp w ++ [124%N]) else None).
Proof. exact line_numbers. Qed.
Print Assumptions C34_numbers_partial.

(** the number shown beside a token is the line it is written on *)
Theorem C34_source_line_partial : forall e t0 last_line rest top bottom,
  flat_map rows (pe_toks e) = (t0, pe_start e) :: rest ->
  line_order (flat_map rows (pe_toks e)) -> Forall (fun r => no_nl (fst r)) (flat_map rows (pe_toks e)) ->
  pe_end e = last_line -> pe_start e + length (lines (pretty_inner (pe_toks e))) <= S last_line ->
  exists out,
    pr_body (into_pretty_str e (mk_ps true top bottom)) = stacked out /\
    forall t l, In (t, l) (flat_map rows (pe_toks e)) -> t <> [] -> no_cr t ->
    exists m mark x y, nth (l - pe_start e) out [] = m ++ mark :: x ++ t ++ y /\ l - pe_start e < length out /\
      right_aligned (Nat.max 4 (length (dec_chars last_line))) l m.
Proof. exact number_is_source_line. Qed.
Print Assumptions C34_source_line_partial.

(** when the end line is not known (stable compilers give the end of the first token), numbers can outgrow the margin *)
Theorem C34_margin_refuted : exists s first last_line out,
  pr_body (add_line_prefix s first last_line false false) = stacked out /\ Forall no_nl out /\ length out = length (lines s) /\
  length (nth 0 out []) <> length (nth 1 out []) /\ length (nth 0 (lines s) []) = length (nth 1 (lines s) []).
Proof.
  exists (chars "a" ++ [nl] ++ chars "b"), 9999, 9999, [chars "9999>a"; chars "10000|b"].
  split; [vm_compute; reflexivity|]. split; [unfold no_nl; repeat (apply Forall_cons; [simpl; intuition discriminate|]); apply Forall_nil|].
  split; [reflexivity|]. split; [vm_compute; discriminate|reflexivity].
Qed.
Print Assumptions C34_margin_refuted.

Example C34_ex :
  let e := mk_pexpr two_lines 7 8 in
  pe_start e + length (lines (pretty_inner (pe_toks e))) <= S (pe_end e) /\
  pr_body (into_pretty_str e (mk_ps true false true)) = chars "   7>    f(a," ++ [nl] ++ chars "   8|  b)".
Proof. split; [vm_compute; lia|reflexivity]. Qed.

(** ** C35 *)
Theorem C35_one_line : forall escape parse_expr ts s, one_line_stringify escape parse_expr ts = Ok s -> no_nl s.
Proof. exact one_line_macro_no_nl. Qed.
Print Assumptions C35_one_line.

(** nothing but white space is lost *)
Theorem C35_visible : forall escape e t,
  visible (one_line_pretty_str escape e t) =
  flat_map visible (map fst (flat_map rows (pe_toks (apply_trunc escape t e)))).
Proof. exact one_line_all_visible. Qed.
Print Assumptions C35_visible.

(** the lines of the layout of C32, each without the white space around it, with one space between two *)
Theorem C35_joined : forall escape e t ls,
  text_lines (pr_body (into_pretty_str (apply_trunc escape t e) (mk_ps false false false))) ls ->
  exists ls', Forall2 trimmed ls ls' /\ one_line_pretty_str escape e t = beside ls'.
Proof. exact one_line_text. Qed.
Print Assumptions C35_joined.

Example C35_ex_joined : text_lines (pr_body (into_pretty_str (mk_pexpr two_lines 7 8) (mk_ps false false false))) [chars "    f(a,"; chars "  b)"].
Proof. apply (tl_lf (chars "    f(a,") (chars "  b)")); [vm_compute; intuition discriminate|vm_compute; discriminate|]. apply tl_last; [discriminate|vm_compute; intuition discriminate]. Qed.
Example C35_ex : one_line_pretty_str (fun x => x) (mk_pexpr two_lines 7 8) NoTruncation = chars "f(a, b)".
Proof. reflexivity. Qed.

(** ** C36 *)
Theorem C36_options : forall X (parse_expr : list tt -> option X) os semi e x ss,
  separated os semi -> expr_like e -> parse_expr e = Some x ->
  Forall2 (fun w s => means (wo_name w) (wo_val w) s) os ss ->
  exists a, parse_margs X parse_expr (input_toks os semi e) = Ok a /\ ma_expr a = x /\
    ma_lines a = last_picked pick_lines ss /\ ma_trunc a = last_picked pick_trunc ss /\
    ma_pad a = last_picked pick_pad ss /\ (ma_show a = true <-> In SShow ss).
Proof. exact parse_margs_ok. Qed.
Print Assumptions C36_options.

Theorem C36_bad_option : forall X (parse_expr : list tt -> option X) os w r semi e ss,
  separated (os ++ w :: r) semi -> expr_like e ->
  Forall2 (fun w s => means (wo_name w) (wo_val w) s) os ss -> (forall s, ~ means (wo_name w) (wo_val w) s) ->
  parse_margs X parse_expr (input_toks (os ++ w :: r) semi e) = Err (ErrOption (wo_name w)).
Proof. exact parse_margs_bad. Qed.
Print Assumptions C36_bad_option.

(** the effect of the options of [excerpted_pretty_stringify!]: given ones are used, others have their default *)
Theorem C36_effect_partial : forall escape parse_expr os semi e x ss,
  separated os semi -> expr_like e -> parse_expr e = Some x ->
  Forall2 (fun w s => means (wo_name w) (wo_val w) s) os ss ->
  exists s, excerpted_pretty_stringify escape parse_expr (input_toks os semi e) = excerpted_pretty_str escape x s /\
    es_max s = match last_picked pick_lines ss with Some n => n | None => 5 end /\
    es_trunc s = Truncate (match last_picked pick_trunc ss with Some o => o | None => None end) /\
    ps_show (es_pretty s) = true /\
    (ps_top (es_pretty s) = true <-> last_picked pick_pad ss = Some PadTop \/ last_picked pick_pad ss = Some PadBoth) /\
    ps_bottom (es_pretty s) = true.
Proof. exact excerpt_effect. Qed.
Print Assumptions C36_effect_partial.

Theorem C36_effect_pretty_partial : forall parse_expr os semi e x ss,
  separated os semi -> expr_like e -> parse_expr e = Some x ->
  Forall2 (fun w s => means (wo_name w) (wo_val w) s) os ss ->
  exists s, pretty_stringify parse_expr (input_toks os semi e) =
    Ok (let r := into_pretty_str x s in
        match pr_top r with Some t => t | None => [] end ++ pr_body r ++ match pr_bottom r with Some t => t | None => [] end) /\
    (ps_show s = true <-> In SShow ss) /\
    (ps_top s = true <-> last_picked pick_pad ss = Some PadTop \/ last_picked pick_pad ss = Some PadBoth) /\
    (ps_bottom s = true <-> last_picked pick_pad ss = Some PadBottom \/ last_picked pick_pad ss = Some PadBoth).
Proof. exact pretty_effect. Qed.
Print Assumptions C36_effect_pretty_partial.

Theorem C36_effect_one_line_partial : forall escape parse_expr os semi e x ss,
  separated os semi -> expr_like e -> parse_expr e = Some x ->
  Forall2 (fun w s => means (wo_name w) (wo_val w) s) os ss ->
  one_line_stringify escape parse_expr (input_toks os semi e) =
    Ok (one_line_pretty_str escape x (match last_picked pick_trunc ss with Some o => Truncate o | None => NoTruncation end)) /\
  truncate_lit_str_macro escape parse_expr (input_toks os semi e) =
    Ok (truncate_expr escape (match last_picked pick_trunc ss with Some o => o | None => None end) x).
Proof. exact one_line_effect. Qed.
Print Assumptions C36_effect_one_line_partial.

(** [@padding = "top"] asks for padding above only, and no padding is documented as the default;
    [excerpted_pretty_stringify!] pads below in both cases *)
Theorem C36_padding_top_refuted : exists escape parse_expr os e x s,
  separated os None /\ expr_like e /\ parse_expr e = Some x /\
  Forall2 (fun w s => means (wo_name w) (wo_val w) s) os [SPad PadTop] /\
  excerpted_pretty_stringify escape parse_expr (input_toks os None e) = Ok s /\
  exists body, s = body ++ [nl] ++ chars "    |".
Proof.
  exists (fun t => t), (fun _ => Some (mk_pexpr [PLeaf (chars "a") 1 1 2] 1 1)), [mk_wopt "padding" (Some (WLit (LStr "top"))) true call_site],
    [qi "a"]. eexists. eexists.
  split; [simpl; intuition discriminate|]. split; [exists (qi "a"), []; repeat split|]. split; [reflexivity|].
  split; [repeat constructor|]. split; [vm_compute; reflexivity|]. exists (chars "    |" ++ [nl] ++ chars "   1>    a"). reflexivity.
Qed.
Print Assumptions C36_padding_top_refuted.

(** the option [@max_len] of the documentation (lib.rs 30) is not accepted *)
Theorem C36_max_len_refuted : exists os e, separated os None /\ expr_like e /\
  Forall (fun w => wo_name w = "max_len" /\ wo_val w = Some (WLit (LUsize 36))) os /\ os <> [] /\
  forall escape parse_expr, truncate_lit_str_macro escape parse_expr (input_toks os None e) = Err (ErrOption "max_len").
Proof.
  exists [mk_wopt "max_len" (Some (WLit (LUsize 36))) true call_site], [qi "f"; qg Parenth [qs "x"]].
  split; [simpl; intuition discriminate|]. split; [eexists; eexists; repeat split|].
  split; [repeat constructor|]. split; [discriminate|]. intros. reflexivity.
Qed.
Print Assumptions C36_max_len_refuted.

Definition some_opts : list wopt :=
  [mk_wopt "excerpt_line" (Some (WLit (LUsize 4))) false call_site; mk_wopt "truncate_str" None true call_site;
   mk_wopt "excerpt_line" (Some (WLit (LUsize 7))) true call_site; mk_wopt "show_line_num" (Some (WBool true)) true call_site; mk_wopt "padding" None false call_site].
Example C36_ex :
  separated some_opts (Some call_site) /\ expr_like [qi "f"] /\
  Forall2 (fun w s => means (wo_name w) (wo_val w) s) some_opts [SLines 4; STrunc None; SLines 7; SShow; SPad PadBoth] /\
  last_picked pick_lines [SLines 4; STrunc None; SLines 7; SShow; SPad PadBoth] = Some 7 /\
  (forall s, ~ means "max_len" (Some (WLit (LUsize 36))) s) /\ (forall s, ~ means "excerpt_line" (Some (WNeg 3)) s).
Proof.
  split. { simpl. intuition (try discriminate). }
  split; [eexists; eexists; repeat split|]. split; [repeat constructor|]. split; [reflexivity|]. split; intros s H; inversion H.
Qed.
