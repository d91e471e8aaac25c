From Coq Require Import String Ascii Bool Arith NArith Lia Permutation Sorted List.
From Coq Require DecimalString DecimalNat.
From Verif Require Import Base Tokens Method Paths Context Render Excerpt ExcerptSpec ExcerptProofs Helpers MapFacts RenderSpec RenderProofs.
Import ListNotations.
Open Scope string_scope.
Open Scope list_scope.

(** ** Names *)
Lemma str_in_spec s l : str_in s l = true <-> In s l.
Proof.
  unfold str_in. rewrite existsb_exists. split; [intros (x & H & E); apply String.eqb_eq in E; congruence|].
  intros H. exists s. split; [exact H|apply String.eqb_refl].
Qed.
Lemma metavar_builtin n : metavar_of n = None <-> ~ In n builtin.
Proof.
  unfold metavar_of.
  repeat match goal with
  | |- context [String.eqb n ?s] => destruct (String.eqb_spec n s) as [->|]; [split; [discriminate|intros H; exfalso; apply H; simpl; tauto]|]
  end.
  simpl. split; [|reflexivity]. intros _ H. intuition congruence.
Qed.
Lemma metavar_so_far n : metavar_of n = Some MVSoFar <-> is_so_far n = true.
Proof.
  unfold is_so_far. rewrite str_in_spec. simpl. unfold metavar_of.
  repeat match goal with
  | |- context [String.eqb n ?s] => destruct (String.eqb_spec n s) as [->|]; [split; [discriminate || (intros _; tauto)|intros H; intuition (discriminate || reflexivity)]|]
  end.
  simpl. split; [discriminate|]. intuition congruence.
Qed.

(** ** Ordinals *)
Lemma chars_uint u : chars (DecimalString.NilEmpty.string_of_uint u) = uint_chars u.
Proof. induction u; simpl; congruence. Qed.
Lemma chars_dec n : chars (dec n) = dec_chars n.
Proof. apply chars_uint. Qed.
Lemma chars_length s : length (chars s) = String.length s.
Proof. induction s; simpl; congruence. Qed.
Lemma dec_decimal n : decimal n (dec n).
Proof.
  unfold decimal. rewrite chars_dec. split; [apply uint_chars_digits|]. split; [apply dec_value|]. split.
  - intros E. apply (dec_nonempty n). rewrite <- chars_dec, E. reflexivity.
  - intros H. rewrite <- chars_length, chars_dec. apply dec_no_leading_zero. exact H.
Qed.

Lemma chars_app a b : chars (a ++ b)%string = chars a ++ chars b.
Proof. induction a as [|c a IH]; [reflexivity|]. simpl. rewrite IH. reflexivity. Qed.
Lemma chars_inj a : forall b, chars a = chars b -> a = b.
Proof.
  induction a as [|x a IH]; intros [|y b] H; cbn [chars] in H; try discriminate; [reflexivity|].
  injection H as H1 H2. f_equal; [|apply IH; exact H2].
  rewrite <- (ascii_N_embedding x), <- (ascii_N_embedding y), H1. reflexivity.
Qed.
Lemma ends_chars s t : ends_with s t <-> exists p, chars s = p ++ chars t.
Proof.
  split; [intros (p & ->); exists (chars p); apply chars_app|]. intros (p & H).
  assert (Hp : exists p', chars p' = p).
  { clear -H. revert s H. induction p as [|c p IH]; intros s H; [exists ""; reflexivity|].
    destruct s as [|x s]; [discriminate|]. cbn [chars app] in H. injection H as Hc H. destruct (IH s H) as (p' & <-).
    exists (String x p'). cbn [chars]. rewrite Hc. reflexivity. }
  destruct Hp as (p' & <-). exists p'. apply chars_inj. rewrite chars_app. exact H.
Qed.

(** the last digits of a decimal text *)
Lemma last_digit (ds : text) p d : ds = p ++ [d] -> is_digit d -> digits_value ds mod 10 = N.to_nat d - 48.
Proof.
  intros -> Hd. rewrite digits_value_app. cbn [length]. change (10 ^ 1) with 10.
  assert (E : digits_value [d] = N.to_nat d - 48) by (unfold digits_value, digit_step, fold_left; lia). rewrite E.
  unfold is_digit, char in *. rewrite Nat.add_comm, Nat.mod_add by lia. apply Nat.mod_small. lia.
Qed.
Lemma last_two (ds : text) p d e : ds = p ++ [d; e] -> is_digit d -> is_digit e ->
  digits_value ds mod 100 = 10 * (N.to_nat d - 48) + (N.to_nat e - 48).
Proof.
  intros -> Hd He. rewrite digits_value_app. cbn [length]. change (10 ^ 2) with 100.
  assert (E : digits_value [d; e] = 10 * (N.to_nat d - 48) + (N.to_nat e - 48)) by (unfold digits_value, digit_step, fold_left; lia). rewrite E.
  unfold is_digit, char in *. rewrite Nat.add_comm, Nat.mod_add by lia. apply Nat.mod_small. lia.
Qed.

Lemma snoc_cases {A} (l : list A) : l = [] \/ exists p x, l = p ++ [x].
Proof. destruct l using rev_ind; [now left|right; eauto]. Qed.

Lemma one_or_two (ds : text) : ds <> [] -> Forall is_digit ds ->
  (exists e, ds = [e] /\ is_digit e) \/ exists p d e, ds = p ++ [d; e] /\ is_digit d /\ is_digit e.
Proof.
  intros Hn HF. destruct (snoc_cases ds) as [->|(p & e & ->)]; [congruence|].
  apply Forall_app in HF. destruct HF as [HF He]. inversion He as [|? ? He' _]; subst.
  destruct (snoc_cases p) as [->|(p' & d & ->)]; [left; exists e; split; [reflexivity|exact He']|].
  apply Forall_app in HF. destruct HF as [_ Hd]. inversion Hd as [|? ? Hd' _]; subst.
  right. exists p', d, e. rewrite <- app_assoc. auto.
Qed.

Lemma app_two_inj {A} (p p' : list A) a b a' b' : p ++ [a; b] = p' ++ [a'; b'] -> a = a' /\ b = b'.
Proof.
  intros H. change [a; b] with ([a] ++ [b]) in H. change [a'; b'] with ([a'] ++ [b']) in H. rewrite !app_assoc in H.
  apply app_inj_tail in H. destruct H as [H ->]. apply app_inj_tail in H. tauto.
Qed.

Lemma ends_one s t (d : char) : chars t = [d] -> forall p e, chars s = p ++ [e] -> (ends_with s t <-> e = d).
Proof.
  intros Ht p e Hs. rewrite ends_chars, Ht, Hs. split.
  - intros (p' & H). apply app_inj_tail in H. tauto.
  - intros ->. exists p; reflexivity.
Qed.
Lemma ends_two s t (d1 d2 : char) : chars t = [d1; d2] -> forall p e1 e2, chars s = p ++ [e1; e2] -> (ends_with s t <-> e1 = d1 /\ e2 = d2).
Proof.
  intros Ht p e1 e2 Hs. rewrite ends_chars, Ht, Hs. split.
  - intros (p' & H). apply app_two_inj in H. tauto.
  - intros [-> ->]. exists p; reflexivity.
Qed.
Lemma ends_two_short s t (d1 d2 : char) e : chars t = [d1; d2] -> chars s = [e] -> ~ ends_with s t.
Proof. intros Ht Hs H. apply ends_chars in H. destruct H as (p & H). rewrite Ht, Hs in H. apply (f_equal (@length _)) in H. rewrite app_length in H. simpl in H. lia. Qed.

Lemma ordinal_english n ds : decimal n ds -> english ds (ordinal_suffix n).
Proof.
  intros (Hd & Hv & Hne & _). unfold ordinal_suffix. rewrite <- Hv. clear Hv n.
  assert (Hc : chars ds <> []) by (intros E; apply Hne; apply chars_inj; exact E).
  destruct (one_or_two _ Hc Hd) as [(e & E & He)|(p & d & e & E & Hdd & He)].
  - assert (Hmod : digits_value (chars ds) mod 100 = N.to_nat e - 48).
    { rewrite E. unfold digits_value, digit_step, fold_left. unfold is_digit, char in *. rewrite Nat.mod_small; lia. }
    rewrite Hmod. unfold is_digit, char in *.
    assert (Hnt : ~ teen ds).
    { intros [H|[H|H]]; revert H; eapply ends_two_short; try exact E; reflexivity. }
    pose proof (fun t d Ht => ends_one ds t d Ht [] e E) as H1.
    destruct (((11 <=? N.to_nat e - 48) && (N.to_nat e - 48 <=? 13))%nat) eqn:Eb.
    { apply andb_true_iff in Eb. rewrite !Nat.leb_le in Eb. lia. }
    rewrite (Nat.mod_small (N.to_nat e - 48) 10) by lia.
    assert (Hcase : e = 49%N \/ e = 50%N \/ e = 51%N \/ (e <> 49%N /\ e <> 50%N /\ e <> 51%N)) by lia.
    destruct Hcase as [->|[->|[->|(N1 & N2 & N3)]]]; simpl.
    + apply en_st; [exact Hnt|]. apply (H1 "1" 49%N eq_refl). reflexivity.
    + apply en_nd; [exact Hnt|]. apply (H1 "2" 50%N eq_refl). reflexivity.
    + apply en_rd; [exact Hnt|]. apply (H1 "3" 51%N eq_refl). reflexivity.
    + destruct (N.to_nat e - 48) as [|[|[|[|x]]]] eqn:Ex; try lia;
        (apply en_th; [rewrite (H1 "1" 49%N eq_refl)|rewrite (H1 "2" 50%N eq_refl)|rewrite (H1 "3" 51%N eq_refl)]; assumption).
  - rewrite (last_two _ p d e E Hdd He). unfold is_digit, char in *.
    pose proof (fun t d Ht => ends_one ds t d Ht (p ++ [d]) e) as H1.
    assert (E' : chars ds = (p ++ [d]) ++ [e]) by (rewrite <- app_assoc; exact E).
    pose proof (fun t x Ht => ends_one ds t x Ht (p ++ [d]) e E') as G1. clear H1.
    pose proof (fun t x y Ht => ends_two ds t x y Ht p d e E) as G2.
    set (a := N.to_nat d - 48) in *. set (b := N.to_nat e - 48) in *.
    assert (Hb10 : (10 * a + b) mod 10 = b).
    { rewrite Nat.add_comm, Nat.mul_comm, Nat.mod_add by lia. apply Nat.mod_small. subst b. lia. }
    rewrite Hb10.
    destruct (((11 <=? 10 * a + b) && (10 * a + b <=? 13))%nat) eqn:Eb.
    + apply andb_true_iff in Eb. rewrite !Nat.leb_le in Eb. apply en_teen.
      assert (Hx : d = 49%N /\ (e = 49%N \/ e = 50%N \/ e = 51%N)) by (subst a b; lia).
      destruct Hx as [Hx1 [Hx|[Hx|Hx]]]; [left; apply (G2 "11" 49%N 49%N eq_refl)|right; left; apply (G2 "12" 49%N 50%N eq_refl)|right; right; apply (G2 "13" 49%N 51%N eq_refl)]; split; assumption.
    + apply andb_false_iff in Eb. rewrite !Nat.leb_gt in Eb.
      assert (Hnt : ~ teen ds).
      { intros [H|[H|H]]; [apply (G2 "11" 49%N 49%N eq_refl) in H|apply (G2 "12" 49%N 50%N eq_refl) in H|apply (G2 "13" 49%N 51%N eq_refl) in H]; destruct H as [H1 H2]; subst a b; rewrite H1, H2 in Eb; simpl in Eb; lia. }
      assert (Hcase : e = 49%N \/ e = 50%N \/ e = 51%N \/ (e <> 49%N /\ e <> 50%N /\ e <> 51%N)) by lia.
      destruct Hcase as [He1|[He1|[He1|(N1 & N2 & N3)]]].
      * replace b with 1 by (subst b; rewrite He1; reflexivity). apply en_st; [exact Hnt|]. apply (G1 "1" 49%N eq_refl). exact He1.
      * replace b with 2 by (subst b; rewrite He1; reflexivity). apply en_nd; [exact Hnt|]. apply (G1 "2" 50%N eq_refl). exact He1.
      * replace b with 3 by (subst b; rewrite He1; reflexivity). apply en_rd; [exact Hnt|]. apply (G1 "3" 51%N eq_refl). exact He1.
      * destruct b as [|[|[|[|x]]]] eqn:Ex; subst b; try lia;
          (apply en_th; [rewrite (G1 "1" 49%N eq_refl)|rewrite (G1 "2" 50%N eq_refl)|rewrite (G1 "3" 51%N eq_refl)]; assumption).
Qed.

Lemma count_str_spec k n : exists ds suf, count_str k n = (ds ++ suf ++ " " ++ kind_word k)%string /\ decimal n ds /\ english ds suf.
Proof.
  exists (dec n), (ordinal_suffix n). split; [destruct k; reflexivity|]. split; [apply dec_decimal|].
  apply ordinal_english, dec_decimal.
Qed.

(** ** Files *)
Lemma has_slash_app a b : has_slash (a ++ b)%string <-> has_slash a \/ has_slash b.
Proof. induction a as [|c a IH]; simpl; [tauto|]. rewrite IH. tauto. Qed.
Lemma str_app_assoc a b c : ((a ++ b) ++ c)%string = (a ++ b ++ c)%string.
Proof. induction a as [|x a IH]; [reflexivity|]. simpl. rewrite IH. reflexivity. Qed.
Lemma str_app_nil a : (a ++ "")%string = a.
Proof. induction a as [|x a IH]; [reflexivity|]. simpl. rewrite IH. reflexivity. Qed.
Lemma after_slash s : forall cur, ~ has_slash cur ->
  ~ has_slash (after_last_slash s cur) /\
  ((cur ++ s)%string = after_last_slash s cur \/ exists dir, (cur ++ s)%string = (dir ++ "/" ++ after_last_slash s cur)%string).
Proof.
  induction s as [|c s IH]; intros cur Hc; simpl.
  - rewrite str_app_nil. auto.
  - destruct (Ascii.eqb_spec c "/") as [->|Hn].
    + destruct (IH "" (fun H => H)) as [H1 H2]. split; [exact H1|]. right. simpl in H2.
      destruct H2 as [H2|(dir & H2)].
      * exists cur. rewrite <- H2. reflexivity.
      * exists (cur ++ "/" ++ dir)%string. rewrite H2 at 1. rewrite !str_app_assoc. reflexivity.
    + destruct (IH (cur ++ String c "")%string) as [H1 H2].
      { rewrite has_slash_app. simpl. intuition congruence. }
      rewrite str_app_assoc in H2. auto.
Qed.
Lemma file_name_spec sp : last_component (sp_file sp) (get_file_name sp).
Proof. destruct (after_slash (sp_file sp) "" (fun H => H)) as [H1 H2]. split; assumption. Qed.
Lemma last_component_unique p a b : last_component p a -> last_component p b -> a = b.
Proof.
  intros [Ha Ea] [Hb Eb].
  assert (G : forall d e x y, ~ has_slash x -> ~ has_slash y -> (d ++ "/" ++ x)%string = (e ++ "/" ++ y)%string -> x = y).
  { induction d as [|c d IH]; intros e x y Hx Hy E; destruct e as [|c' e]; simpl in E.
    - congruence.
    - injection E as <- E. exfalso. apply Hx. rewrite E. rewrite has_slash_app. right. left. reflexivity.
    - injection E as E0 E. exfalso. apply Hy. rewrite <- E. rewrite has_slash_app. right. left. congruence.
    - injection E as _ E. eapply IH; eassumption. }
  destruct Ea as [->|(d & ->)]; destruct Eb as [E|(e & E)].
  - exact E.
  - exfalso. apply Ha. rewrite E. rewrite has_slash_app. right. left. reflexivity.
  - exfalso. apply Hb. rewrite <- E. rewrite has_slash_app. right. left. reflexivity.
  - eapply G; eassumption.
Qed.

(** ** Generated code *)
Lemma read_path_q names r : read_path names (qpath names ++ r) = Some r.
Proof. induction names as [|n l IH]; [reflexivity|]. simpl. rewrite String.eqb_refl. exact IH. Qed.

Lemma read_entry_q ts_str k v : forall e, binding_tuple ts_str (k, v) = e -> exists g, e = [TGroup Parenth g call_site] /\ read_entry g = Some (k, ts_str v, v).
Proof. intros e <-. eexists. split; [reflexivity|]. reflexivity. Qed.

Lemma read_entries_q ts_str l :
  read_entries (commas (map (binding_tuple ts_str) l)) = Some (map (fun b => (fst b, ts_str (snd b), snd b)) l).
Proof.
  induction l as [|[k v] l IH]; [reflexivity|]. destruct l as [|[k2 v2] l].
  - reflexivity.
  - cbn [map commas] in *. set (rest := match map _ l with [] => _ | _ => _ end) in *.
    change (read_entries (binding_tuple ts_str (k, v) ++ qp "," :: rest)) with
      (match read_entries rest with Some [] => None | Some x => Some ((k, ts_str v, v) :: x) | None => None end).
    rewrite IH. reflexivity.
Qed.
Lemma read_bindings_q ts_str c :
  read_bindings (get_bindings_token_stream ts_str c) = Some (map (fun b => (fst b, ts_str (snd b), snd b)) (available_bindings c)).
Proof.
  unfold read_bindings, get_bindings_token_stream. rewrite read_path_q. cbn [read_group qg]. apply read_entries_q.
Qed.

Lemma meta_var_value ts_str c k count source ets q so_far n v :
  is_so_far n = false -> meta_var_toks ts_str c k count source ets q so_far n = Ok v -> value ts_str c k count source ets q n v.
Proof.
  intros Hs H. unfold meta_var_toks in H.
  assert (Hb : value ts_str c k count source ets q "bindings" (get_bindings_token_stream ts_str c)).
  { eapply v_bindings; [simpl; tauto|apply sort_entries|apply read_bindings_q]. }
  assert (Hc : forall x, In x ["count"; "nth"] -> value ts_str c k count source ets q x (str_lit (count_str k count))).
  { intros x Hx. destruct (count_str_spec k count) as (ds & suf & -> & H1 & H2). apply v_count; assumption. }
  destruct (metavar_of n) as [[]|] eqn:E; try (injection H as <-).
  - unfold metavar_of in E. destruct (String.eqb_spec n "line") as [->|]; [constructor|].
    repeat match type of E with context [String.eqb n ?s] => destruct (String.eqb n s); try discriminate E end.
  - assert (In n ["column"; "col"]).
    { unfold metavar_of in E. destruct (String.eqb_spec n "column"); [simpl; auto|]. destruct (String.eqb_spec n "col"); [simpl; auto|].
      repeat match type of E with context [String.eqb n ?s] => destruct (String.eqb n s); try discriminate E end. }
    constructor; assumption.
  - unfold metavar_of in E. destruct (String.eqb_spec n "path") as [->|]; [constructor|].
    repeat match type of E with context [String.eqb n ?s] => destruct (String.eqb n s); try discriminate E end.
  - unfold metavar_of in E. destruct (String.eqb_spec n "file") as [->|]; [apply v_file, file_name_spec|].
    repeat match type of E with context [String.eqb n ?s] => destruct (String.eqb n s); try discriminate E end.
  - unfold metavar_of in E. destruct (String.eqb_spec n "expr") as [->|]; [constructor|].
    repeat match type of E with context [String.eqb n ?s] => destruct (String.eqb n s); try discriminate E end.
  - unfold metavar_of in E. destruct (String.eqb_spec n "source") as [->|]; [constructor|].
    repeat match type of E with context [String.eqb n ?s] => destruct (String.eqb n s); try discriminate E end.
  - apply Hc. unfold metavar_of in E. destruct (String.eqb_spec n "nth"); [simpl; auto|]. destruct (String.eqb_spec n "count"); [simpl; auto|].
    repeat match type of E with context [String.eqb n ?s] => destruct (String.eqb n s); try discriminate E end.
  - assert (In n ["fn_name"; "fnname"]).
    { unfold metavar_of in E. destruct (String.eqb_spec n "fn_name"); [simpl; auto|]. destruct (String.eqb_spec n "fnname"); [simpl; auto|].
      repeat match type of E with context [String.eqb n ?s] => destruct (String.eqb n s); try discriminate E end. }
    unfold get_fn_name, fn_info_name. pose proof (v_fn_name ts_str c k count source ets q n H) as G.
    destruct (fval (cx_fn c)) as [[]|]; exact G.
  - assert (In n ["fn_sig"; "fnsig"]).
    { unfold metavar_of in E. destruct (String.eqb_spec n "fn_sig"); [simpl; auto|]. destruct (String.eqb_spec n "fnsig"); [simpl; auto|].
      repeat match type of E with context [String.eqb n ?s] => destruct (String.eqb n s); try discriminate E end. }
    unfold get_fn_sig, fn_info_sig_toks. pose proof (v_fn_sig ts_str c k count source ets q n H) as G.
    destruct (fval (cx_fn c)) as [[]|]; exact G.
  - apply metavar_so_far in E. congruence.
  - assert (In n ["bindings"; "vars"]).
    { unfold metavar_of in E. destruct (String.eqb_spec n "bindings"); [simpl; auto|]. destruct (String.eqb_spec n "vars"); [simpl; auto|].
      repeat match type of E with context [String.eqb n ?s] => destruct (String.eqb n s); try discriminate E end. }
    eapply v_bindings; [assumption|apply sort_entries|apply read_bindings_q].
  - assert (In n ["hooq_meta"; "hooqmeta"]).
    { unfold metavar_of in E. destruct (String.eqb_spec n "hooq_meta"); [simpl; auto|]. destruct (String.eqb_spec n "hooqmeta"); [simpl; auto|].
      repeat match type of E with context [String.eqb n ?s] => destruct (String.eqb n s); try discriminate E end. }
    eapply v_meta; [assumption|apply v_line|apply v_column; simpl; auto|apply v_path|apply v_file, file_name_spec|apply Hc; simpl; auto|exact Hb|].
    reflexivity.
  - apply metavar_builtin in E. unfold get_binding in H. destruct (mget n (fval (cx_bindings c))) eqn:Eg; [|discriminate].
    injection H as <-. apply v_binding; assumption.
Qed.

Lemma meta_var_known ts_str c k count source ets q so_far n :
  is_so_far n = false ->
  ((exists v, meta_var_toks ts_str c k count source ets q so_far n = Ok v) <->
   In n builtin \/ exists v, mget n (fval (cx_bindings c)) = Some v).
Proof.
  intros Hs. unfold meta_var_toks. destruct (metavar_of n) as [m|] eqn:E.
  - assert (Hb : In n builtin).
    { destruct (in_dec string_dec n builtin) as [H|H]; [exact H|]. apply metavar_builtin in H. congruence. }
    destruct m; try (split; [intros _; left; exact Hb|intros _; eexists; reflexivity]).
    apply metavar_so_far in E. congruence.
  - apply metavar_builtin in E. unfold get_binding. destruct (mget n (fval (cx_bindings c))) as [v|].
    + split; [right; eauto|]. intros _. eexists; reflexivity.
    + split; [intros (v & H); discriminate|]. intros [H|(v & H)]; [contradiction|discriminate].
Qed.

Lemma meta_var_unknown ts_str c k count source ets q so_far n e :
  is_so_far n = false -> meta_var_toks ts_str c k count source ets q so_far n = Err e ->
  ~ In n builtin /\ mget n (fval (cx_bindings c)) = None /\
  exists l, sorted_entries (fval (cx_bindings c)) l /\
    e = ErrUnknownVar n (map fst l)
      ["line"; "column"; "path"; "file"; "expr"; "source"; "count"; "fn_name"; "fn_sig"; "so_far"; "bindings"; "hooq_meta"].
Proof.
  intros Hs H. unfold meta_var_toks in H. destruct (metavar_of n) as [m|] eqn:E.
  - destruct m; try discriminate. apply metavar_so_far in E. congruence.
  - apply metavar_builtin in E. unfold get_binding in H. destruct (mget n (fval (cx_bindings c))) eqn:Eg; [discriminate|].
    injection H as <-. split; [exact E|]. split; [reflexivity|]. eexists. split; [apply sort_entries|reflexivity].
Qed.

Lemma meta_var_so_far ts_str c k count source ets q so_far n :
  is_so_far n = true -> meta_var_toks ts_str c k count source ets q so_far n = so_far.
Proof. intros H. apply metavar_so_far in H. unfold meta_var_toks. rewrite H. reflexivity. Qed.
Lemma meta_var_other ts_str c k count source ets q s1 s2 n :
  is_so_far n = false -> meta_var_toks ts_str c k count source ets q s1 n = meta_var_toks ts_str c k count source ets q s2 n.
Proof.
  intros H. unfold meta_var_toks. destruct (metavar_of n) as [[]|] eqn:E; try reflexivity.
  apply metavar_so_far in E. congruence.
Qed.
Lemma meta_var_no_panic ts_str c k count source ets q s n m :
  (forall m, s <> Panic m) -> meta_var_toks ts_str c k count source ets q s n <> Panic m.
Proof.
  intros Hs. unfold meta_var_toks. destruct (metavar_of n) as [[]|]; try discriminate; [apply Hs|].
  destruct (get_binding c n); discriminate.
Qed.

(** ** [$so_far] *)
Section FieldInd.
  Variable T : Type.
  Variable P : field T -> Prop.
  Hypothesis H0 : forall v, P (Field v None).
  Hypothesis H1 : forall v a, P a -> P (Field v (Some a)).
  Fixpoint field_ind' (f : field T) : P f :=
    match f with Field v anc => match anc with None => H0 v | Some a => H1 v a (field_ind' a) end end.
End FieldInd.

Lemma filled_ext (V W : string -> list tt -> Prop) ts : (forall n v, uses n ts -> V n v -> W n v) -> forall o, filled V ts o -> filled W ts o.
Proof.
  intros H o S. induction S as [|a|name v a b r r' Hv _ IH|d ts ts' sp r r' _ IH1 _ IH2|t r r' Hd Hg _ IH].
  - constructor.
  - constructor.
  - constructor; [apply H; [constructor|exact Hv]|]. apply IH. intros n w U. apply H. apply us_next, us_next; exact U.
  - constructor; [apply IH1|apply IH2]; intros n w U; apply H; [apply us_in; exact U|apply us_next; exact U].
  - apply fi_tok; try assumption. apply IH. intros n w U. apply H. apply us_next; exact U.
Qed.

Section SoFar.
  Variable ts_str : list tt -> string.
  Variable c : ctx.
  Variable k : kind.
  Variable count : nat.
  Variable source ets : list tt.
  Variable q : span.
  Let mv := meta_var_toks ts_str c k count source ets q.
  Let em := expand_method ts_str c k count source ets q.
  Definition plain (n : string) (v : list tt) : Prop := mv (Err ErrNoSoFar) n = Ok v.

  Lemma em_unfold m anc : em (Field m anc) =
    expand_with (mv (match anc with Some a => em a | None => Err ErrNoSoFar end)) (m_template m).
  Proof. reflexivity. Qed.

  Lemma so_far_stack f : forall out, em f = Ok out <-> stack_exp plain (map m_template (chain f)) out.
  Proof.
    induction f as [m|m a IH] using field_ind'; intros out; rewrite em_unfold; cbn [chain map stack_exp] in *; rewrite expand_filled.
    - split; apply filled_ext; intros n v _.
      + intros H. destruct (is_so_far n) eqn:E.
        * unfold mv in H. rewrite meta_var_so_far in H by exact E. discriminate.
        * right. split; [reflexivity|exact H].
      + intros [[E []]|[E H]]. exact H.
    - split; apply filled_ext; intros n v _.
      + intros H. destruct (is_so_far n) eqn:E.
        * left. split; [reflexivity|]. apply IH. unfold mv in H. rewrite meta_var_so_far in H by exact E. exact H.
        * right. split; [reflexivity|]. unfold plain, mv in *. rewrite (meta_var_other _ _ _ _ _ _ _ _ (em a)) by exact E. exact H.
      + intros [[E H]|[E H]].
        * unfold mv. rewrite meta_var_so_far by exact E. apply IH; exact H.
        * unfold plain, mv in *. rewrite (meta_var_other _ _ _ _ _ _ _ _ (Err ErrNoSoFar)) by exact E. exact H.
  Qed.

  Lemma so_far_missing m n : uses n (m_template m) -> is_so_far n = true -> forall out, em (field_new m) <> Ok out.
  Proof.
    intros U E out H. unfold field_new in H. rewrite em_unfold in H. destruct (expand_uses _ _ _ _ H U) as (v & Hv).
    unfold mv in Hv. rewrite meta_var_so_far in Hv by exact E. discriminate.
  Qed.

  Lemma em_no_panic f m : em f <> Panic m.
  Proof.
    revert m. induction f as [x|x a IH] using field_ind'; intros m; rewrite em_unfold; apply expand_no_panic; intros n m';
      apply meta_var_no_panic; intros m''; [discriminate|apply IH].
  Qed.

  Lemma em_success f :
    Forall (fun m => dollars_weak (m_template m)) (chain f) ->
    (forall m n, In m (chain f) -> uses n (m_template m) -> is_so_far n = false -> In n builtin \/ exists v, mget n (fval (cx_bindings c)) = Some v) ->
    (forall pre m n, chain f = pre ++ [m] -> uses n (m_template m) -> is_so_far n = false) ->
    exists out, em f = Ok out.
  Proof.
    induction f as [m|m a IH] using field_ind'; intros HF Hk Hl; rewrite em_unfold; cbn [chain] in *;
      inversion HF as [|? ? Hd HF']; subst; apply expand_total; try exact Hd; intros n U.
    - specialize (Hl [] m n eq_refl U). apply meta_var_known; [exact Hl|]. apply (Hk m); [now left|exact U|exact Hl].
    - destruct (is_so_far n) eqn:E.
      + unfold mv. rewrite meta_var_so_far by exact E. apply IH; [exact HF'| |].
        * intros m' n' Hin. apply Hk. now right.
        * intros pre m' n' Hc. apply (Hl (m :: pre)). rewrite Hc. reflexivity.
      + apply meta_var_known; [exact E|]. apply (Hk m); [now left|exact U|exact E].
  Qed.

  Lemma em_needs f out : em f = Ok out -> forall n, uses n (m_template (fval f)) ->
    (is_so_far n = true /\ fanc f <> None) \/ (is_so_far n = false /\ (In n builtin \/ exists v, mget n (fval (cx_bindings c)) = Some v)).
  Proof.
    destruct f as [m anc]. intros H n U. rewrite em_unfold in H. destruct (expand_uses _ _ _ _ H U) as (v & Hv).
    destruct (is_so_far n) eqn:E.
    - left. split; [reflexivity|]. unfold mv in Hv. rewrite meta_var_so_far in Hv by exact E. destruct anc; [discriminate|discriminate Hv].
    - right. split; [reflexivity|]. eapply meta_var_known; [exact E|]. eexists; exact Hv.
  Qed.
  Lemma em_weak f out : em f = Ok out -> dollars_weak (m_template (fval f)).
  Proof. destruct f as [m anc]. intros H. rewrite em_unfold in H. apply expand_sound in H. eapply filled_weak; exact H. Qed.
End SoFar.

(** ** Iteration order *)
Definition with_bindings (c : ctx) (b : smap (list tt)) : ctx :=
  mk_ctx (cx_method c) (cx_targets c) (cx_tails c) (cx_ignores c) (cx_results c) (cx_macros c)
         (Field b (fanc (cx_bindings c))) (cx_skip c) (cx_fn c).
Lemma available_perm c b b' : NoDup (keys b) -> Permutation b b' ->
  available_bindings (with_bindings c b) = available_bindings (with_bindings c b').
Proof. intros Hn HP. apply sort_perm_eq; assumption. Qed.
Lemma meta_var_perm ts_str c b b' k count source ets q s n : NoDup (keys b) -> Permutation b b' ->
  meta_var_toks ts_str (with_bindings c b) k count source ets q s n = meta_var_toks ts_str (with_bindings c b') k count source ets q s n.
Proof.
  intros Hn HP. pose proof (available_perm c b b' Hn HP) as E.
  unfold meta_var_toks, hooq_meta, get_bindings_token_stream. rewrite !E.
  assert (G : get_binding (with_bindings c b) n = get_binding (with_bindings c b') n) by (apply mget_perm; assumption).
  rewrite G. destruct (metavar_of n) as [[]|]; reflexivity.
Qed.
Lemma expand_loop_ext grp grp' var var' : (forall n, var n = var' n) ->
  forall ts, Forall (fun t => grp t = grp' t) ts -> forall flag, expand_loop grp var flag ts = expand_loop grp' var' flag ts.
Proof.
  intros Hv. induction ts as [|t r IH]; intros HF flag; [reflexivity|]. inversion HF as [|? ? Ht HF']; subst. specialize (IH HF').
  destruct t; simpl; rewrite ?IH, ?Hv, ?Ht; reflexivity.
Qed.
Lemma expand_group_ext var var' : (forall n, var n = var' n) -> forall t, expand_group var t = expand_group var' t.
Proof.
  intros Hv t. induction t as [s p|s p|l p|d ts p IH] using tt_ind'; try reflexivity. simpl.
  rewrite (expand_loop_ext _ (expand_group var') var var' Hv ts IH). reflexivity.
Qed.
Lemma expand_with_ext var var' ts : (forall n, var n = var' n) -> expand_with var ts = expand_with var' ts.
Proof.
  intros Hv. apply expand_loop_ext; [exact Hv|]. apply Forall_forall. intros t _. apply expand_group_ext; exact Hv.
Qed.
Lemma expand_method_perm ts_str c b b' k count source ets q f : NoDup (keys b) -> Permutation b b' ->
  expand_method ts_str (with_bindings c b) k count source ets q f = expand_method ts_str (with_bindings c b') k count source ets q f.
Proof.
  intros Hn HP. induction f as [m|m a IH] using field_ind'; cbn [expand_method]; apply expand_with_ext; intros n.
  - apply meta_var_perm; assumption.
  - rewrite IH. apply meta_var_perm; assumption.
Qed.
Lemma render_perm ts_str c b b' k count source ets q : NoDup (keys b) -> Permutation b b' ->
  render_toks ts_str (with_bindings c b) k count source ets q = render_toks ts_str (with_bindings c b') k count source ets q.
Proof. intros Hn HP. unfold render_toks. rewrite (expand_method_perm _ _ b b') by assumption. reflexivity. Qed.

(** ** The run-time value of [$bindings] *)
Lemma mget_map {A B} (f : A -> B) k (m : list (string * A)) : mget k (map (fun e => (fst e, f (snd e))) m) = option_map f (mget k m).
Proof. induction m as [|[x y] m IH]; [reflexivity|]. simpl. destruct (String.eqb k x); [reflexivity|exact IH]. Qed.
Definition runtime (ev : list tt -> dyn) (l : list (string * string * list tt)) : smap payload :=
  hashmap_from (map (fun e => (fst (fst e), mk_payload (snd (fst e)) (ev (snd e)))) l).
Lemma runtime_get ts_str c ev k l : NoDup (keys (fval (cx_bindings c))) ->
  read_bindings (get_bindings_token_stream ts_str c) = Some l ->
  mget k (runtime ev l) = option_map (fun v => mk_payload (ts_str v) (ev v)) (mget k (fval (cx_bindings c))).
Proof.
  intros Hn E. rewrite read_bindings_q in E. injection E as <-. unfold runtime, hashmap_from. rewrite mget_mextend.
  rewrite map_map. cbn [fst snd]. set (a := available_bindings c).
  assert (P : Permutation (fval (cx_bindings c)) a) by apply sort_perm.
  assert (Hna : NoDup (keys a)) by (eapply Permutation_NoDup; [apply Permutation_map; exact P|exact Hn]).
  rewrite last_get_nodup.
  2:{ rewrite map_map. exact Hna. }
  rewrite (mget_map (fun v => mk_payload (ts_str v) (ev v))). rewrite <- (mget_perm k _ _ Hn P).
  destruct (mget k (fval (cx_bindings c))); reflexivity.
Qed.
Lemma get_binding_spec ts_str c ev l m T k x : NoDup (keys (fval (cx_bindings c))) ->
  read_bindings (get_bindings_token_stream ts_str c) = Some l -> hm_bindings m = runtime ev l ->
  (meta_get_binding T m k = Some x <->
   exists v, mget k (fval (cx_bindings c)) = Some v /\ dyn_type (ev v) = T /\ dyn_val (ev v) = x).
Proof.
  intros Hn E Em. unfold meta_get_binding. rewrite Em, (runtime_get ts_str c ev k l Hn E).
  destruct (mget k (fval (cx_bindings c))) as [v|]; simpl.
  - unfold downcast. destruct (Nat.eqb_spec T (dyn_type (ev v))) as [H|H].
    + split; [intros H2; injection H2 as <-; exists v; auto|]. intros (w & Hw & H1 & H2). injection Hw as <-. congruence.
    + split; [discriminate|]. intros (w & Hw & H1 & _). injection Hw as <-. congruence.
  - split; [discriminate|]. intros (w & Hw & _). discriminate.
Qed.

Lemma set_span_nospan q t : tt_nospan (set_span q t) = tt_nospan t.
Proof. destruct t; reflexivity. Qed.
Lemma render_shape ts_str c k count source ets q ts :
  expand_method ts_str c k count source ets q (cx_method c) = Ok ts ->
  exists out, nospan out = nospan ts /\ Forall (fun t => tt_span t = q) out /\
  render_toks ts_str c k count source ets q =
    Ok (match fval (cx_method c) with Insert dot _ _ => ets ++ [TPunct "." dot] ++ out | Replace _ _ => out end).
Proof.
  intros H. exists (map (set_span q) ts). unfold nospan. rewrite map_map. split; [|split].
  - apply map_ext. intros t. apply set_span_nospan.
  - apply Forall_forall. intros t Hin. apply in_map_iff in Hin. destruct Hin as (x & <- & _). destruct x; reflexivity.
  - unfold render_toks. rewrite H. simpl. destruct (fval (cx_method c)); reflexivity.
Qed.
Lemma builtin_not_shadowed ts_str c b k count source ets q so_far n :
  In n builtin -> ~ In n ["bindings"; "vars"; "hooq_meta"; "hooqmeta"] ->
  meta_var_toks ts_str (with_bindings c b) k count source ets q so_far n = meta_var_toks ts_str c k count source ets q so_far n.
Proof.
  intros H Hn. unfold builtin in H. simpl in H. simpl in Hn.
  repeat (destruct H as [<-|H]; [reflexivity || (exfalso; apply Hn; tauto)|]). destruct H.
Qed.
