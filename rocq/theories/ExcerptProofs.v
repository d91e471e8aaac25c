(** Proofs about the excerpt functions.  *)
From Coq Require Import String Ascii Bool Arith NArith Lia List.
From Verif Require Import Base Tokens Excerpt ExcerptSpec.
Import ListNotations.
Open Scope string_scope.
Open Scope list_scope.

(** ** Lines *)
Lemma split_nl_nonempty s : split_nl s <> [].
Proof. destruct s as [|c s]; simpl; [discriminate|]. destruct (N.eqb c nl); [discriminate|]. destruct (split_nl s); discriminate. Qed.

Lemma stacked_cons l r : r <> [] -> stacked (l :: r) = l ++ nl :: stacked r.
Proof. destruct r; [congruence|reflexivity]. Qed.

Lemma stacked_split s : stacked (split_nl s) = s.
Proof.
  induction s as [|c s IH]; [reflexivity|]. simpl.
  destruct (N.eqb_spec c nl) as [->|Hc].
  - rewrite stacked_cons by apply split_nl_nonempty. rewrite IH. reflexivity.
  - pose proof (split_nl_nonempty s) as Hn. destruct (split_nl s) as [|l r] eqn:E; [congruence|].
    destruct r as [|l2 r]; simpl in *; rewrite <- IH; reflexivity.
Qed.

Lemma split_no_nl s : Forall no_nl (split_nl s).
Proof.
  induction s as [|c s IH]; simpl.
  - constructor; [intros []|constructor].
  - destruct (N.eqb_spec c nl) as [->|Hc].
    + constructor; [intros []|exact IH].
    + pose proof (split_nl_nonempty s). destruct (split_nl s) as [|l r]; [congruence|].
      inversion IH as [|? ? H1 H2]; subst. constructor; [|exact H2].
      intros [->|Hin]; [congruence|apply H1; exact Hin].
Qed.

Lemma split_single l : no_nl l -> split_nl l = [l].
Proof.
  induction l as [|c l IH]; [reflexivity|]. intros H. simpl.
  destruct (N.eqb_spec c nl) as [->|Hc]; [exfalso; apply H; now left|].
  rewrite IH; [reflexivity|]. intros Hin; apply H; now right.
Qed.

Lemma split_app_nl l s : no_nl l -> split_nl (l ++ nl :: s) = l :: split_nl s.
Proof.
  induction l as [|c l IH]; intros H; simpl.
  - reflexivity.
  - destruct (N.eqb_spec c nl) as [->|Hc]; [exfalso; apply H; now left|].
    rewrite IH; [reflexivity|]. intros Hin; apply H; now right.
Qed.

Lemma split_stacked ls : ls <> [] -> Forall no_nl ls -> split_nl (stacked ls) = ls.
Proof.
  induction ls as [|l r IH]; [congruence|]. intros _ H. inversion H as [|? ? H1 H2]; subst.
  destruct r as [|l2 r].
  - simpl. apply split_single; exact H1.
  - rewrite stacked_cons by discriminate. rewrite split_app_nl by exact H1. f_equal. apply IH; [discriminate|exact H2].
Qed.

Lemma join_stacked ls : join [nl] ls = stacked ls.
Proof. induction ls as [|l [|l2 r] IH]; [reflexivity|reflexivity|]. change (l ++ [nl] ++ join [nl] (l2 :: r) = l ++ nl :: stacked (l2 :: r)). rewrite IH. reflexivity. Qed.

(** ** Truncation *)
Lemma truncate_line_default l : truncate_line folder_default l = truncate_line (folder_new 10) l.
Proof. reflexivity. Qed.

Lemma skip_skip {A} (n m : nat) (l : list A) : skipn n (skipn m l) = skipn (n + m) l.
Proof.
  revert l. induction m as [|m IH]; intros l; [rewrite Nat.add_0_r; reflexivity|].
  destruct l as [|x l]; [rewrite !skipn_nil; reflexivity|]. rewrite Nat.add_succ_r. simpl. apply IH.
Qed.

Lemma rev_firstn_rev {A} k (l : list A) : rev (firstn k (rev l)) = skipn (length l - k) l.
Proof. rewrite firstn_rev, rev_involutive. reflexivity. Qed.

Lemma cut_short n a b l : length l > n -> a + 2 + b = n -> a <= b <= S a ->
  short n l (firstn a l ++ chars ".." ++ rev (firstn b (rev l))).
Proof.
  intros Hl Hn Hab. rewrite rev_firstn_rev.
  apply short_cut with (mid := firstn (length l - b - a) (skipn a l)).
  - lia.
  - assert (E : skipn (length l - b) l = skipn (length l - b - a) (skipn a l)).
    { rewrite skip_skip. f_equal. lia. }
    rewrite E, firstn_skipn, firstn_skipn. reflexivity.
  - rewrite firstn_length, skipn_length. lia.
  - rewrite firstn_length, skipn_length. lia.
Qed.

Lemma truncate_line_short n l : 2 <= n -> short n l (truncate_line (folder_new n) l).
Proof.
  intros Hn. unfold truncate_line, folder_new.
  destruct (Nat.ltb_spec n 2); [lia|]. cbn [fo_max fo_start fo_end].
  pose proof (Nat.div_mod (n - 2) 2). pose proof (Nat.mod_upper_bound (n - 2) 2).
  destruct (Nat.ltb_spec n (length l)) as [Hl|Hl].
  - apply cut_short; lia.
  - apply short_same. lia.
Qed.

Lemma short_no_nl n l l' : short n l l' -> no_nl l -> no_nl l'.
Proof.
  intros [H|pre mid suf H E _ _] Hn; [exact Hn|]. subst l.
  intros Hin. apply in_app_or in Hin. destruct Hin as [Hin|Hin].
  - apply Hn. apply in_or_app; now left.
  - simpl in Hin. destruct Hin as [Hin|[Hin|Hin]]; [discriminate|discriminate|].
    apply Hn. apply in_or_app; right. apply in_or_app; now right.
Qed.

Lemma truncate_value_shortened n v : 2 <= n -> shortened n v (truncate_value (folder_new n) v).
Proof.
  intros Hn. exists (split_nl v), (map (truncate_line (folder_new n)) (split_nl v)).
  repeat split.
  - symmetry; apply stacked_split.
  - unfold truncate_value. apply join_stacked.
  - apply split_nl_nonempty.
  - apply split_no_nl.
  - induction (split_nl v) as [|l r IH]; simpl; constructor; [apply truncate_line_short; exact Hn|exact IH].
Qed.

Lemma short_det n l a b : 2 <= n -> short n l a -> short n l b -> a = b.
Proof.
  intros Hn Ha Hb. destruct Ha as [Ha|p m s Ha E1 E2 E3]; destruct Hb as [Hb|p' m' s' Hb F1 F2 F3]; try lia; [reflexivity|].
  assert (Hp : length p = length p') by lia. assert (Hs : length s = length s') by lia.
  assert (p = p').
  { transitivity (firstn (length p) l).
    - rewrite E1. rewrite firstn_app, Nat.sub_diag, firstn_all. simpl. rewrite app_nil_r. reflexivity.
    - rewrite F1, Hp. rewrite firstn_app, Nat.sub_diag, firstn_all. simpl. rewrite app_nil_r. reflexivity. }
  assert (s = s').
  { transitivity (skipn (length l - length s) l).
    - rewrite E1. rewrite !app_length. replace (length p + (length m + length s) - length s) with (length (p ++ m)) by (rewrite app_length; lia).
      rewrite app_assoc, skipn_app, skipn_all, Nat.sub_diag. reflexivity.
    - rewrite F1, Hs. rewrite !app_length. replace (length p' + (length m' + length s') - length s') with (length (p' ++ m')) by (rewrite app_length; lia).
      rewrite app_assoc, skipn_app, skipn_all, Nat.sub_diag. reflexivity. }
  congruence.
Qed.

Lemma short_length n l l' : 2 <= n -> short n l l' -> length l' = Nat.min n (length l).
Proof.
  intros Hn [H|p m s H E E2 _]; [lia|]. subst l. rewrite !app_length in *. change (length dots) with 2. lia.
Qed.

Lemma truncate_value_idem n v : 2 <= n ->
  truncate_value (folder_new n) (truncate_value (folder_new n) v) = truncate_value (folder_new n) v.
Proof.
  intros Hn. unfold truncate_value at 1.
  assert (Hs : split_nl (truncate_value (folder_new n) v) = map (truncate_line (folder_new n)) (split_nl v)).
  { unfold truncate_value. rewrite join_stacked. apply split_stacked.
    - intros E. apply map_eq_nil in E. exact (split_nl_nonempty v E).
    - pose proof (split_no_nl v) as H. induction H as [|l r H1 H2 IH]; simpl; constructor; [|exact IH].
      eapply short_no_nl; [apply truncate_line_short; exact Hn|exact H1]. }
  rewrite Hs. rewrite map_map.
  unfold truncate_value. f_equal. apply map_ext. intros l.
  pose proof (truncate_line_short n l Hn) as H. apply short_length in H; [|exact Hn].
  unfold truncate_line at 1. change (fo_max (folder_new n)) with (fo_max (folder_new n)).
  assert (Hm : fo_max (folder_new n) = n) by (unfold folder_new; destruct (n <? 2)%nat; reflexivity).
  rewrite Hm. destruct (Nat.ltb_spec n (length (truncate_line (folder_new n) l))); [lia|reflexivity].
Qed.

Fixpoint ptt_size (t : ptt) : nat :=
  match t with PGroup _ _ _ kids _ _ => S (fold_right (fun k n => ptt_size k + n) 0 kids) | _ => 1 end.
Definition ptt_ind' (P : ptt -> Prop)
  (HL : forall x l c e, P (PLeaf x l c e)) (HS : forall v x l c e, P (PStr v x l c e))
  (HG : forall d ol oc kids cl ce, Forall P kids -> P (PGroup d ol oc kids cl ce)) : forall t, P t :=
  fix go t := match t with
  | PLeaf x l c e => HL x l c e
  | PStr v x l c e => HS v x l c e
  | PGroup d ol oc kids cl ce => HG d ol oc kids cl ce
      ((fix all l : Forall P l := match l with [] => Forall_nil P | k :: r => Forall_cons k (go k) (all r) end) kids)
  end.

Lemma folder_of_some o : folder_of o = folder_new (match o with Some n => n | None => 10 end).
Proof. destruct o; reflexivity. Qed.

Lemma truncate_tt_shortened escape n t : 2 <= n -> tt_shortened escape n t (truncate_tt escape (folder_new n) t).
Proof.
  intros Hn. induction t as [x l c e|v x l c e|d ol oc kids cl ce IH] using ptt_ind'; simpl.
  - constructor.
  - constructor. apply truncate_value_shortened; exact Hn.
  - constructor. induction IH as [|k r Hk _ IHr]; simpl; constructor; assumption.
Qed.

Lemma truncate_expr_shortened escape o e :
  let n := match o with Some n => n | None => 10 end in
  2 <= n ->
  Forall2 (tt_shortened escape n) (pe_toks e) (pe_toks (truncate_expr escape o e)) /\
  pe_start (truncate_expr escape o e) = pe_start e /\ pe_end (truncate_expr escape o e) = pe_end e.
Proof.
  intros n Hn. split; [|split; reflexivity]. unfold truncate_expr. simpl pe_toks. rewrite folder_of_some. fold n.
  induction (pe_toks e) as [|t r IH]; simpl; constructor; [apply truncate_tt_shortened; exact Hn|exact IH].
Qed.

(** ** Excerpt *)
Lemma last_last_lines (ls : list text) : ls <> [] -> last_lines 1 ls = [last ls []].
Proof.
  intros H. unfold last_lines. destruct (exists_last H) as (r & x & ->).
  rewrite last_last, app_length. simpl length. replace (length r + 1 - 1) with (length r) by lia.
  rewrite skipn_app, skipn_all, Nat.sub_diag. reflexivity.
Qed.

Lemma excerpt_shape escape e s :
  1 <= es_max s ->
  let r := into_pretty_str (apply_trunc escape (es_trunc s) e) (es_pretty s) in
  exists shown,
    excerpted_pretty_str escape e s =
      Ok (match pr_top r with Some t => t | None => [] end ++ shown ++ match pr_bottom r with Some t => t | None => [] end)
    /\ ((length (lines (pr_body r)) <= 2 /\ 2 <= es_max s /\ shown = pr_body r)
        \/ shown = stacked (excerpt_lines (es_max s) (lines (pr_body r)))).
Proof.
  intros Hm r. unfold excerpted_pretty_str. destruct (Nat.ltb_spec (es_max s) 1); [lia|].
  fold r. set (ls := lines (pr_body r)).
  destruct (Nat.eqb_spec (es_max s) 1) as [E1|E1].
  - exists (last ls []). split; [reflexivity|]. right. unfold excerpt_lines. rewrite E1.
    destruct (Nat.leb_spec (length ls) 1) as [Hl|Hl].
    + destruct ls as [|a [|b ls']]; simpl in Hl; [reflexivity|reflexivity|lia].
    + rewrite last_last_lines; [reflexivity|]. intros ->; simpl in Hl; lia.
  - destruct (Nat.leb_spec (length ls) 2) as [H2|H2].
    + exists (pr_body r). split; [reflexivity|]. left. repeat split; [exact H2|lia].
    + eexists. split; [unfold pad_wrap; reflexivity|]. right.
      rewrite join_stacked. unfold excerpt_lines. destruct ls as [|l1 ls]; [simpl in H2; lia|].
      simpl hd. simpl tl. rewrite rev_firstn_rev.
      destruct (Nat.ltb_spec (es_max s) (length (l1 :: ls))) as [Hg|Hg].
      * destruct (Nat.leb_spec (length (l1 :: ls)) (es_max s)); [lia|].
        destruct (es_max s) as [|[|m]] eqn:Em; [lia|lia|].
        f_equal. simpl. f_equal. f_equal. unfold last_lines. simpl length.
        simpl in Hg. replace (S (length ls) - (S m)) with (S (length ls - (S m))) by lia. reflexivity.
      * destruct (Nat.leb_spec (length (l1 :: ls)) (es_max s)); [|lia].
        simpl in Hg. replace (length ls - (es_max s - 1)) with 0 by lia. reflexivity.
Qed.

(** [lines] of stacked lines *)
Definition no_cr (s : text) : Prop := ~ In cr s.
Lemma strip_cr_id l : no_cr l -> strip_cr l = l.
Proof.
  induction l as [|c l IH]; [reflexivity|]. intros H. destruct l as [|c2 l].
  - simpl. destruct (N.eqb_spec c cr) as [->|]; [exfalso; apply H; now left|reflexivity].
  - change (strip_cr (c :: c2 :: l)) with (c :: strip_cr (c2 :: l)). rewrite IH; [reflexivity|].
    intros Hin; apply H; now right.
Qed.
Lemma lines_of_id ls : Forall no_cr ls -> last ls [] <> [] -> lines_of ls = ls.
Proof.
  induction ls as [|l r IH]; [reflexivity|]. intros H Hl. inversion H as [|? ? H1 H2]; subst.
  destruct r as [|l2 r].
  - simpl in *. destruct l; [congruence|reflexivity].
  - change (lines_of (l :: l2 :: r)) with (strip_cr l :: lines_of (l2 :: r)). rewrite strip_cr_id by exact H1.
    rewrite IH; [reflexivity|exact H2|]. exact Hl.
Qed.
Lemma lines_stacked ls : ls <> [] -> Forall no_nl ls -> Forall no_cr ls -> last ls [] <> [] -> lines (stacked ls) = ls.
Proof. intros H1 H2 H3 H4. unfold lines. rewrite split_stacked by assumption. apply lines_of_id; assumption. Qed.

(** ** Decimal numbers *)
Lemma uint_chars_digits u : Forall is_digit (uint_chars u).
Proof. induction u; simpl; constructor; try assumption; unfold is_digit; lia. Qed.

Lemma fold_digits u acc :
  fold_left digit_step (uint_chars u) acc = Nat.of_uint_acc u acc.
Proof.
  revert acc. induction u; intros acc; simpl uint_chars; cbn [fold_left Nat.of_uint_acc]; try reflexivity;
    rewrite <- IHu; f_equal; unfold digit_step;
    rewrite Nat.tail_mul_spec;
    match goal with |- context [N.to_nat ?n] => let v := eval compute in (N.to_nat n - 48) in change (N.to_nat n - 48) with v end; lia.
Qed.

From Coq Require DecimalNat.

Lemma dec_value n : digits_value (dec_chars n) = n.
Proof. unfold digits_value, dec_chars. rewrite fold_digits. apply DecimalNat.Unsigned.of_to. Qed.

Lemma to_uint_norm n : Nat.to_uint n = Decimal.unorm (Nat.to_uint n).
Proof. rewrite <- DecimalNat.Unsigned.to_of. rewrite DecimalNat.Unsigned.of_to. reflexivity. Qed.

Lemma dec_nonempty n : dec_chars n <> [].
Proof. unfold dec_chars. rewrite to_uint_norm. unfold Decimal.unorm. destruct (Decimal.nzhead (Nat.to_uint n)); discriminate. Qed.

Lemma nzhead_hd u : forall d, Decimal.nzhead u <> Decimal.D0 d.
Proof. intros d. induction u; simpl; try discriminate. exact IHu. Qed.

Lemma dec_no_leading_zero n : hd 48%N (dec_chars n) = 48%N -> length (dec_chars n) = 1.
Proof.
  unfold dec_chars. rewrite to_uint_norm. unfold Decimal.unorm.
  pose proof (nzhead_hd (Nat.to_uint n)) as H.
  destruct (Decimal.nzhead (Nat.to_uint n)) eqn:E; simpl; intros Hh; try discriminate; try reflexivity.
  exfalso. exact (H u eq_refl).
Qed.

Lemma digits_value_app a b : digits_value (a ++ b) = digits_value a * 10 ^ length b + digits_value b.
Proof.
  unfold digits_value. rewrite fold_left_app. generalize (fold_left digit_step a 0) as x.
  induction b as [|c b IH] using rev_ind; intros x.
  - simpl. lia.
  - rewrite !fold_left_app, app_length. cbn [fold_left length]. rewrite IH, Nat.pow_add_r. change (10 ^ 1) with 10. unfold digit_step. nia.
Qed.

Lemma digit1_upper (c : char) : is_digit c -> digits_value [c] < 10.
Proof. unfold is_digit, digits_value, digit_step, char in *. cbn [fold_left]. lia. Qed.
Lemma digit1_lower (c : char) : is_digit c -> c <> 48%N -> 1 <= digits_value [c].
Proof. unfold is_digit, digits_value, digit_step, char in *. cbn [fold_left]. lia. Qed.

Lemma digits_upper ds : Forall is_digit ds -> digits_value ds < 10 ^ length ds.
Proof.
  induction ds as [|c ds IH] using rev_ind; intros H.
  - simpl. unfold digits_value. simpl. lia.
  - apply Forall_app in H. destruct H as [H1 H2]. inversion H2 as [|? ? Hc _]; subst.
    rewrite digits_value_app, app_length. simpl length. specialize (IH H1). rewrite Nat.pow_add_r.
    assert (digits_value [c] < 10). { apply digit1_upper; exact Hc. }
    change (10 ^ 1) with 10. nia.
Qed.

Lemma digits_lower ds : Forall is_digit ds -> (hd 48%N ds = 48%N -> length ds = 1) -> 2 <= length ds -> 10 ^ (length ds - 1) <= digits_value ds.
Proof.
  intros Hd Hh Hl. destruct ds as [|c ds]; [simpl in Hl; lia|].
  change (c :: ds) with ([c] ++ ds). rewrite digits_value_app.
  simpl app. simpl length. rewrite Nat.sub_succ, Nat.sub_0_r.
  inversion Hd as [|? ? Hc _]; subst.
  assert (1 <= digits_value [c]).
  { apply digit1_lower; [exact Hc|]. intros ->. simpl in Hh, Hl. specialize (Hh eq_refl). lia. }
  nia.
Qed.

Lemma dec_length_mono n m : n <= m -> length (dec_chars n) <= length (dec_chars m).
Proof.
  intros H. destruct (Nat.le_gt_cases (length (dec_chars n)) (length (dec_chars m))) as [Hle|Hgt]; [exact Hle|exfalso].
  assert (1 <= length (dec_chars m)). { pose proof (dec_nonempty m). destruct (dec_chars m); [congruence|simpl; lia]. }
  pose proof (digits_lower (dec_chars n) (uint_chars_digits _) (dec_no_leading_zero n)) as L.
  pose proof (digits_upper (dec_chars m) (uint_chars_digits _)) as U.
  rewrite dec_value in L, U. specialize (L ltac:(lia)).
  assert (10 ^ length (dec_chars m) <= 10 ^ (length (dec_chars n) - 1)) by (apply Nat.pow_le_mono_r; lia).
  lia.
Qed.

Lemma right_align_ok w n : length (dec_chars n) <= w -> right_aligned w n (right_align w (dec_chars n)).
Proof.
  intros H. exists (repeat sp (w - length (dec_chars n))), (dec_chars n). repeat split.
  - apply Forall_forall. intros x Hx. apply repeat_spec in Hx. congruence.
  - apply dec_nonempty.
  - apply uint_chars_digits.
  - apply dec_value.
  - apply dec_no_leading_zero.
  - unfold right_align. rewrite app_length, repeat_length. lia.
Qed.

Lemma prefix_lines_spec w ls : forall first k p,
  (forall i, i < length ls -> length (dec_chars (first + k + i)) <= w) ->
  p = (if Nat.eqb k 0 then 62 else 124)%N ->
  length (prefix_lines w (first + k) p ls) = length ls /\
  forall i, i < length ls -> numbered_line w first (k + i) (nth i ls []) (nth i (prefix_lines w (first + k) p ls) []).
Proof.
  induction ls as [|l r IH]; intros first k p Hw Hp; simpl.
  - split; [reflexivity|]. intros i Hi; lia.
  - specialize (IH first (S k) 124%N).
    replace (first + S k) with (S (first + k)) in IH by lia.
    destruct IH as [IH1 IH2].
    + intros i Hi. specialize (Hw (S i)). simpl in Hw. replace (S (first + k) + i) with (first + k + S i) by lia. apply Hw. lia.
    + reflexivity.
    + split; [rewrite IH1; reflexivity|]. intros [|i] Hi.
      * rewrite Nat.add_0_r. exists (right_align w (dec_chars (first + k))). split.
        -- rewrite Hp. reflexivity.
        -- apply right_align_ok. specialize (Hw 0). rewrite Nat.add_0_r in Hw. apply Hw. simpl; lia.
      * specialize (IH2 i ltac:(lia)). replace (k + S i) with (S k + i) by lia. exact IH2.
Qed.

Lemma line_numbers s first last_line top bottom :
  first + length (lines s) <= S last_line ->
  let w := Nat.max 4 (length (dec_chars last_line)) in
  exists out,
    pr_body (add_line_prefix s first last_line top bottom) = stacked out /\
    length out = length (lines s) /\
    (forall i, i < length out -> numbered_line w first i (nth i (lines s) []) (nth i out [])) /\
    pr_top (add_line_prefix s first last_line top bottom) = (if top then Some (repeat sp w ++ [124%N; nl]) else None) /\
    pr_bottom (add_line_prefix s first last_line top bottom) = (if bottom then Some (nl :: repeat sp w ++ [124%N]) else None).
Proof.
  intros H w. unfold add_line_prefix. rewrite (Nat.max_comm (length (dec_chars last_line)) 4). fold w.
  set (out := prefix_lines w first 62%N (lines s)).
  assert (Hs := prefix_lines_spec w (lines s) first 0 62%N). rewrite Nat.add_0_r in Hs. fold out in Hs.
  destruct Hs as [H1 H2].
  - intros i Hi. etransitivity; [apply dec_length_mono with (m := last_line); lia|]. unfold w; lia.
  - reflexivity.
  - exists out. split; [simpl; apply join_stacked|]. split; [exact H1|]. split.
    + intros i Hi. specialize (H2 i ltac:(lia)). exact H2.
    + split; reflexivity.
Qed.

(** ** One line *)
Lemma trim_start_in s c : In c (trim_start s) -> In c s.
Proof. induction s as [|x s IH]; simpl; [easy|]. destruct (is_ws x); [intros H; right; auto|auto]. Qed.
Lemma trim_in s c : In c (trim s) -> In c s.
Proof. unfold trim. intros H. apply in_rev in H. apply trim_start_in in H. apply in_rev in H. apply trim_start_in in H. exact H. Qed.
Lemma strip_cr_in l c : In c (strip_cr l) -> In c l.
Proof.
  induction l as [|x l IH]; [easy|]. destruct l as [|y l].
  - simpl. destruct (N.eqb x cr); simpl; tauto.
  - change (strip_cr (x :: y :: l)) with (x :: strip_cr (y :: l)). intros [H|H]; [now left|right; auto].
Qed.
Lemma lines_of_in ls l c : In l (lines_of ls) -> In c l -> exists l', In l' ls /\ In c l'.
Proof.
  induction ls as [|x r IH]; [easy|]. destruct r as [|y r].
  - simpl. destruct x; [easy|]. intros [<-|[]] Hc. eauto.
  - change (lines_of (x :: y :: r)) with (strip_cr x :: lines_of (y :: r)). intros [<-|H] Hc.
    + exists x. split; [now left|apply strip_cr_in; exact Hc].
    + destruct (IH H Hc) as (l' & H1 & H2). exists l'. split; [now right|exact H2].
Qed.
Lemma join_in sepr ls c : In c (join sepr ls) -> In c sepr \/ exists l, In l ls /\ In c l.
Proof.
  induction ls as [|l r IH]; [easy|]. destruct r as [|l2 r].
  - simpl. intros H. right. exists l. auto.
  - change (join sepr (l :: l2 :: r)) with (l ++ sepr ++ join sepr (l2 :: r)). intros H.
    apply in_app_or in H. destruct H as [H|H]; [right; exists l; split; [now left|exact H]|].
    apply in_app_or in H. destruct H as [H|H]; [now left|]. destruct (IH H) as [|(l' & H1 & H2)]; [now left|].
    right; exists l'. split; [now right|exact H2].
Qed.
Lemma one_line_no_nl escape e t : no_nl (one_line_pretty_str escape e t).
Proof.
  unfold one_line_pretty_str. intros H. apply join_in in H. destruct H as [[H|[]]|(l & H1 & H2)]; [discriminate|].
  apply in_map_iff in H1. destruct H1 as (l' & <- & H1). apply trim_in in H2.
  unfold lines in H1. destruct (lines_of_in _ _ _ H1 H2) as (l2 & H3 & H4).
  pose proof (split_no_nl (pr_body (into_pretty_str (apply_trunc escape t e) (mk_ps false false false)))) as F.
  rewrite Forall_forall in F. exact (F l2 H3 H4).
Qed.

(** visible characters *)
Lemma white_in c : is_white c = true <-> In c white.
Proof. unfold is_white. rewrite existsb_exists. split; [intros (x & H & E); apply N.eqb_eq in E; subst; exact H|intros H; exists c; split; [exact H|apply N.eqb_refl]]. Qed.
Lemma is_ws_white c : is_ws c = is_white c.
Proof.
  apply eq_true_iff_eq. rewrite white_in. unfold is_ws. rewrite !orb_true_iff, !andb_true_iff, !N.leb_le, !N.eqb_eq. unfold white. cbn [In].
  split; intros H; repeat match goal with H : _ \/ _ |- _ => destruct H | H : False |- _ => destruct H end; subst; try lia; tauto || (repeat first [left; lia | right]).
Qed.
Lemma visible_app a b : visible (a ++ b) = visible a ++ visible b.
Proof. apply filter_app. Qed.
Lemma visible_rev s : visible (rev s) = rev (visible s).
Proof. induction s as [|c s IH]; [reflexivity|]. simpl rev. rewrite visible_app, IH. unfold visible. simpl. destruct (is_white c); simpl; [apply app_nil_r|reflexivity]. Qed.
Lemma visible_trim_start s : visible (trim_start s) = visible s.
Proof. induction s as [|c s IH]; [reflexivity|]. cbn [trim_start]. rewrite is_ws_white. destruct (is_white c) eqn:E; [|reflexivity]. rewrite IH. unfold visible. cbn [filter]. rewrite E. reflexivity. Qed.
Lemma visible_trim s : visible (trim s) = visible s.
Proof. unfold trim. rewrite visible_rev, visible_trim_start, visible_rev, rev_involutive, visible_trim_start. reflexivity. Qed.
Lemma visible_strip_cr l : visible (strip_cr l) = visible l.
Proof.
  induction l as [|x l IH]; [reflexivity|]. destruct l as [|y l].
  - simpl. destruct (N.eqb_spec x cr) as [->|]; reflexivity.
  - change (strip_cr (x :: y :: l)) with (x :: strip_cr (y :: l)).
    change (x :: y :: l) with ([x] ++ y :: l). change (x :: strip_cr (y :: l)) with ([x] ++ strip_cr (y :: l)).
    rewrite !visible_app, IH. reflexivity.
Qed.
Lemma visible_stacked ls : visible (stacked ls) = flat_map visible ls.
Proof.
  induction ls as [|l r IH]; [reflexivity|]. destruct r as [|l2 r]; [simpl; symmetry; apply app_nil_r|].
  rewrite stacked_cons by discriminate. change (nl :: stacked (l2 :: r)) with ([nl] ++ stacked (l2 :: r)).
  rewrite !visible_app, IH. reflexivity.
Qed.
Lemma visible_join_sp ls : visible (join [sp] ls) = flat_map visible ls.
Proof.
  induction ls as [|l r IH]; [reflexivity|]. destruct r as [|l2 r]; [simpl; symmetry; apply app_nil_r|].
  change (join [sp] (l :: l2 :: r)) with (l ++ [sp] ++ join [sp] (l2 :: r)).
  rewrite !visible_app, IH. reflexivity.
Qed.
Lemma visible_lines_of ls : flat_map visible (lines_of ls) = flat_map visible ls.
Proof.
  induction ls as [|l r IH]; [reflexivity|]. destruct r as [|l2 r].
  - simpl. destruct l; [reflexivity|]. reflexivity.
  - change (visible (strip_cr l) ++ flat_map visible (lines_of (l2 :: r)) = visible l ++ flat_map visible (l2 :: r)).
    rewrite IH, visible_strip_cr. reflexivity.
Qed.
Lemma one_line_visible escape e t :
  visible (one_line_pretty_str escape e t) = visible (pretty_inner (pe_toks (apply_trunc escape t e))).
Proof.
  unfold one_line_pretty_str. rewrite visible_join_sp. unfold into_pretty_str. simpl pr_body. set (s := pretty_inner _).
  unfold lines. assert (H : forall ls, flat_map visible (map trim ls) = flat_map visible ls).
  { induction ls as [|l r IH]; [reflexivity|]. simpl. rewrite visible_trim, IH. reflexivity. }
  rewrite H, visible_lines_of, <- visible_stacked, stacked_split. reflexivity.
Qed.

(** what is left of the lines *)
Lemma trim_start_white s : exists a, s = a ++ trim_start s /\ Forall (fun c => In c white) a /\ (trim_start s = [] \/ ~ In (hd 0%N (trim_start s)) white).
Proof.
  induction s as [|c s (a & E & Ha & Hs)]; [exists []; repeat split; [constructor|now left]|]. cbn [trim_start]. rewrite is_ws_white. destruct (is_white c) eqn:Ec.
  - exists (c :: a). split; [cbn; f_equal; exact E|]. split; [constructor; [apply white_in; exact Ec|exact Ha]|exact Hs].
  - exists []. split; [reflexivity|]. split; [constructor|]. right. cbn. intros H. apply white_in in H. congruence.
Qed.
Lemma last_hd_rev (l : text) : last l 0%N = hd 0%N (rev l).
Proof. destruct l as [|c l] using rev_ind; [reflexivity|]. rewrite last_last, rev_app_distr. reflexivity. Qed.
Lemma trim_trimmed l : trimmed l (trim l).
Proof.
  unfold trim. destruct (trim_start_white l) as (a & E & Ha & Hs). set (m := trim_start l) in *. destruct (trim_start_white (rev m)) as (b & Eb & Hb & Hr). set (r := trim_start (rev m)) in *.
  assert (Em : m = rev r ++ rev b) by (rewrite <- rev_app_distr, <- Eb, rev_involutive; reflexivity).
  exists a, (rev b). split; [rewrite <- Em; exact E|]. split; [exact Ha|]. split; [apply Forall_rev; exact Hb|].
  destruct Hr as [Hr|Hr]; [left; rewrite Hr; reflexivity|]. right. rewrite last_hd_rev, rev_involutive. split; [|exact Hr].
  destruct Hs as [Hs|Hs].
  - rewrite Hs in Em. symmetry in Em. apply app_eq_nil in Em. destruct Em as [Em _]. apply (f_equal (@rev _)) in Em. rewrite rev_involutive in Em. rewrite Em in *. exact Hr.
  - destruct (rev r) as [|c x] eqn:Er; [|rewrite Em in Hs; exact Hs]. apply (f_equal (@rev _)) in Er. rewrite rev_involutive in Er. rewrite Er in Hr. exact Hr.
Qed.
Lemma join_beside ls : join [sp] ls = beside ls.
Proof. induction ls as [|l r IH]; [reflexivity|]. destruct r as [|l2 r]; [reflexivity|]. change (l ++ [sp] ++ join [sp] (l2 :: r) = l ++ sp :: beside (l2 :: r)). rewrite IH. reflexivity. Qed.

Lemma truncate_small n l : n < 2 -> n < length l -> truncate_line (folder_new n) l = dots.
Proof.
  intros H1 H2. unfold truncate_line, folder_new. destruct (Nat.ltb_spec n 2); [|lia]. cbn [fo_max fo_start fo_end].
  destruct (Nat.ltb_spec n (length l)); [|lia]. simpl. reflexivity.
Qed.

Lemma strip_cr_end l : strip_cr (l ++ [cr]) = l.
Proof. induction l as [|c l IH]; [reflexivity|]. cbn [app strip_cr]. rewrite IH. destruct l; reflexivity. Qed.
Lemma strip_cr_other l : last l 0%N <> cr -> strip_cr l = l.
Proof.
  induction l as [|c l IH]; [reflexivity|]. intros H. destruct l as [|d l].
  - cbn in *. destruct (N.eqb_spec c cr); [congruence|reflexivity].
  - change (c :: strip_cr (d :: l) = c :: d :: l). f_equal. apply IH. exact H.
Qed.
Lemma lines_cons l s : no_nl l -> lines (l ++ nl :: s) = strip_cr l :: lines s.
Proof.
  intros H. unfold lines. rewrite split_app_nl by exact H. pose proof (split_nl_nonempty s) as Hn.
  destruct (split_nl s); [congruence|reflexivity].
Qed.
Lemma text_lines_exact s ls : text_lines s ls -> lines s = ls.
Proof.
  induction 1 as [|l Hl Hn|l s ls Hn Hc _ IH|l s ls Hn _ IH].
  - reflexivity.
  - unfold lines. rewrite split_single by exact Hn. destruct l; [congruence|reflexivity].
  - rewrite lines_cons by exact Hn. rewrite IH, strip_cr_other by exact Hc. reflexivity.
  - replace (l ++ cr :: nl :: s) with ((l ++ [cr]) ++ nl :: s) by (rewrite <- app_assoc; reflexivity).
    rewrite lines_cons, IH, strip_cr_end; [reflexivity|]. intros Hin. apply in_app_or in Hin. destruct Hin as [Hin|[Hin|[]]]; [exact (Hn Hin)|discriminate].
Qed.
Lemma one_line_text escape e t ls : text_lines (pr_body (into_pretty_str (apply_trunc escape t e) (mk_ps false false false))) ls ->
  exists ls', Forall2 trimmed ls ls' /\ one_line_pretty_str escape e t = beside ls'.
Proof.
  intros H. apply text_lines_exact in H. exists (map trim ls). unfold one_line_pretty_str. rewrite H, join_beside. split; [|reflexivity].
  clear H. induction ls as [|l r IH]; constructor; [apply trim_trimmed|exact IH].
Qed.
Lemma first_line (s : text) : no_nl s \/ exists l r, s = l ++ nl :: r /\ no_nl l.
Proof.
  induction s as [|c s IH]; [left; intros []|]. destruct (N.eq_dec c nl) as [->|Hc].
  - right. exists [], s. split; [reflexivity|intros []].
  - destruct IH as [H|(l & r & -> & H)].
    + left. intros [E|Hin]; [exact (Hc E)|exact (H Hin)].
    + right. exists (c :: l), r. split; [reflexivity|]. intros [E|Hin]; [exact (Hc E)|exact (H Hin)].
Qed.
Lemma text_lines_total s : exists ls, text_lines s ls.
Proof.
  enough (G : forall n s, length s <= n -> exists ls, text_lines s ls) by exact (G (length s) s (le_n _)).
  clear s. induction n as [|n IH]; intros s Hs.
  - destruct s; [|cbn in Hs; lia]. exists []. constructor.
  - destruct (first_line s) as [H|(l & r & -> & H)].
    + destruct s as [|c s]; [exists []; constructor|]. exists [c :: s]. constructor; [discriminate|exact H].
    + destruct (IH r) as (ls & Hr); [rewrite app_length in Hs; cbn in Hs; lia|].
      destruct (N.eq_dec (last l 0%N) cr) as [E|E]; [|exists (l :: ls); constructor; assumption].
      assert (Hl : l <> []) by (intros ->; discriminate E). 
      assert (El : l = removelast l ++ [cr]) by (etransitivity; [exact (app_removelast_last 0%N Hl)|f_equal; f_equal; exact E]).
      exists (removelast l :: ls). replace (l ++ nl :: r) with (removelast l ++ cr :: nl :: r) by (rewrite El at 2; rewrite <- app_assoc; reflexivity).
      apply tl_crlf; [|exact Hr]. intros Hin. apply H. rewrite El. apply in_or_app. left; exact Hin.
Qed.
Lemma text_lines_one s : exists! ls, text_lines s ls.
Proof.
  destruct (text_lines_total s) as (ls & H). exists ls. split; [exact H|]. intros ls' H'.
  apply text_lines_exact in H, H'. congruence.
Qed.
Lemma excerpt_text escape e s ls :
  1 <= es_max s ->
  let r := into_pretty_str (apply_trunc escape (es_trunc s) e) (es_pretty s) in
  text_lines (pr_body r) ls ->
  exists shown,
    excerpted_pretty_str escape e s =
      Ok (match pr_top r with Some t => t | None => [] end ++ shown ++ match pr_bottom r with Some t => t | None => [] end) /\
    (shown = stacked (excerpt_lines (es_max s) ls) \/ (shown = pr_body r /\ length ls <= es_max s)).
Proof.
  intros H r Ht. destruct (excerpt_shape escape e s H) as (shown & E & C). fold r in C, E. apply text_lines_exact in Ht. rewrite Ht in C.
  exists shown. split; [exact E|]. destruct C as [(C1 & C2 & ->)| ->]; [right; split; [reflexivity|lia]|left; reflexivity].
Qed.
Lemma excerpt_exact escape e s ls :
  1 <= es_max s ->
  let r := into_pretty_str (apply_trunc escape (es_trunc s) e) (es_pretty s) in
  pr_body r = stacked ls -> ls <> [] -> Forall no_nl ls -> Forall no_cr ls -> last ls [] <> [] ->
  excerpted_pretty_str escape e s =
    Ok (match pr_top r with Some t => t | None => [] end ++ stacked (excerpt_lines (es_max s) ls) ++
        match pr_bottom r with Some t => t | None => [] end).
Proof.
  intros H r Hb H1 H2 H3 H4. destruct (excerpt_shape escape e s H) as (shown & E & C). rewrite E. fold r in C |- *.
  rewrite Hb in C. rewrite lines_stacked in C by assumption. do 3 f_equal.
  destruct C as [(C1 & C2 & ->)| ->]; [|reflexivity].
  unfold excerpt_lines. destruct (Nat.leb_spec (length ls) (es_max s)); [reflexivity|lia].
Qed.
