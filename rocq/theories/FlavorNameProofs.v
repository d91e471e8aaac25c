(** Proofs about flavor names and look-up.  *)
From Coq Require Import String Ascii Bool Arith Lia Permutation List.
From Verif Require Import Base Tokens Method Paths Context Flavor TomlStore RootAttr MapFacts RenderProofs FlavorSpec.
Import ListNotations.
Open Scope string_scope.
Open Scope list_scope.

Lemma sapp_assoc a b c : ((a ++ b) ++ c = a ++ (b ++ c))%string.
Proof. induction a; simpl; [reflexivity|now rewrite IHa]. Qed.
Lemma sapp_nil a : (a ++ "" = a)%string.
Proof. induction a; simpl; [reflexivity|now rewrite IHa]. Qed.

Lemma joined_app l1 s1 sp l2 s2 : joined l1 s1 -> joined l2 s2 -> joined (l1 ++ l2) (s1 ++ sep_str sp ++ s2)%string.
Proof.
  induction 1 as [n|n sp' l r H IH]; intros H2; simpl.
  - constructor. exact H2.
  - rewrite !sapp_assoc. constructor. apply IH, H2.
Qed.

(** ** Splitting joins back *)
Lemma split_cc_joined : forall n s cur, String.length s <= n -> joined (split_cc s cur) (cur ++ s).
Proof.
  induction n as [|n IH]; intros s cur Hn.
  - destruct s; [|simpl in Hn; lia]. simpl. rewrite sapp_nil. constructor.
  - destruct s as [|c r]; [simpl; rewrite sapp_nil; constructor|].
    simpl. destruct r as [|c2 r2].
    + simpl. constructor.
    + destruct (Ascii.eqb_spec c ":") as [->|H1]; [destruct (Ascii.eqb_spec c2 ":") as [->|H2]|]; simpl andb; cbn iota.
      * apply (j_more cur Colons). apply (IH r2 ""). simpl in Hn. lia.
      * replace (cur ++ String ":" (String c2 r2))%string with ((cur ++ ":") ++ String c2 r2)%string by (rewrite sapp_assoc; reflexivity).
        apply IH. simpl in *. lia.
      * replace (cur ++ String c (String c2 r2))%string with ((cur ++ String c "") ++ String c2 r2)%string by (rewrite sapp_assoc; reflexivity).
        apply IH. simpl in *. lia.
Qed.
Lemma split_dot_joined : forall s cur, joined (flat_map (fun s => split_cc s "") (split_dot s cur)) (cur ++ s).
Proof.
  induction s as [|c r IH]; intros cur; simpl.
  - rewrite app_nil_r, sapp_nil. apply (split_cc_joined (String.length cur) cur ""); lia.
  - destruct (Ascii.eqb_spec c ".") as [->|H].
    + simpl. apply (joined_app _ cur Dot _ r).
      * apply (split_cc_joined (String.length cur) cur ""); lia.
      * apply (IH "").
    + replace (cur ++ String c r)%string with ((cur ++ String c "") ++ r)%string by (rewrite sapp_assoc; reflexivity).
      apply IH.
Qed.

(** ** Joining splits back *)
Lemma split_dot_cur r : forall cur, exists h t, split_dot r "" = h :: t /\ split_dot r cur = (cur ++ h)%string :: t.
Proof.
  induction r as [|c r IH]; intros cur; simpl.
  - exists "", []. rewrite sapp_nil. split; reflexivity.
  - destruct (Ascii.eqb_spec c ".") as [->|H].
    + exists "", (split_dot r ""). rewrite sapp_nil. split; reflexivity.
    + destruct (IH (String c "")) as (h & t & E1 & E2). destruct (IH (cur ++ String c "")%string) as (h' & t' & E1' & E2').
      rewrite E1 in E1'. injection E1' as <- <-. exists (String c "" ++ h)%string, t. split; [exact E2|].
      rewrite E2'. rewrite sapp_assoc. reflexivity.
Qed.
Lemma split_dot_name n r : ~ has_char "." n -> forall cur, split_dot (n ++ r) cur = split_dot r (cur ++ n).
Proof.
  induction n as [|c n IH]; intros H cur; simpl; [now rewrite sapp_nil|].
  simpl in H. destruct (Ascii.eqb_spec c ".") as [->|Hc]; [tauto|]. rewrite IH by tauto. rewrite sapp_assoc. reflexivity.
Qed.
Lemma split_cc_end n : ~ has_char ":" n -> forall cur, split_cc n cur = [(cur ++ n)%string].
Proof.
  induction n as [|c n IH]; intros H cur; simpl; [now rewrite sapp_nil|]. simpl in H.
  assert (E : split_cc n (cur ++ String c "") = [(cur ++ String c n)%string]) by (rewrite IH by tauto; rewrite sapp_assoc; reflexivity).
  destruct n as [|c2 n2]; [exact E|]. destruct (Ascii.eqb_spec c ":") as [->|Hc]; [tauto|]. exact E.
Qed.
Lemma split_cc_name n r : ~ has_char ":" n -> forall cur, split_cc (n ++ "::" ++ r) cur = (cur ++ n)%string :: split_cc r "".
Proof.
  induction n as [|c n IH]; intros H cur.
  - simpl. rewrite sapp_nil. reflexivity.
  - simpl in H. specialize (IH ltac:(tauto) (cur ++ String c "")%string). rewrite sapp_assoc in IH.
    change ((String c n ++ "::" ++ r)%string) with (String c (n ++ "::" ++ r)).
    cbn [split_cc]. destruct (n ++ "::" ++ r)%string as [|c2 r2] eqn:E; [destruct n; discriminate|].
    destruct (Ascii.eqb_spec c ":") as [->|Hc]; [tauto|]. simpl andb. cbn iota. exact IH.
Qed.

Lemma split_names l s : joined l s -> Forall simple_name l -> flat_map (fun s => split_cc s "") (split_dot s "") = l.
Proof.
  induction 1 as [n|n sp l r H IH]; intros HF.
  - inversion HF as [|? ? [H1 H2] _]; subst. rewrite <- (sapp_nil n), split_dot_name by exact H1. simpl.
    rewrite app_nil_r. rewrite sapp_nil. apply split_cc_end, H2.
  - inversion HF as [|? ? [H1 H2] HF2]; subst. rewrite split_dot_name by exact H1. simpl ("" ++ n)%string.
    destruct sp; simpl sep_str.
    + change ("." ++ r)%string with (String "." r). simpl split_dot. cbn [flat_map]. rewrite split_cc_end by exact H2.
      rewrite (IH HF2). reflexivity.
    + change ("::" ++ r)%string with (String ":" (String ":" r)). cbn [split_dot]. simpl Ascii.eqb. cbn iota.
      destruct (split_dot_cur r ((n ++ ":") ++ ":")) as (h & t & E1 & E2). rewrite E2. rewrite E1 in IH. cbn [flat_map] in *.
      rewrite !sapp_assoc. change (":" ++ ":" ++ h)%string with ("::" ++ h)%string. rewrite (split_cc_name n h H2 ""). cbn [app]. rewrite (IH HF2). reflexivity.
Qed.

(** ** Every string *)
Definition no_cc (n : string) : Prop := ~ exists a b, n = (a ++ "::" ++ b)%string.
Definition starts_colon (s : string) : Prop := exists r, s = String ":" r.
Lemma sapp_end a x b y : (a ++ String x "" = b ++ String y "")%string -> a = b /\ x = y.
Proof.
  revert b. induction a as [|c a IH]; intros [|d b] H; simpl in H.
  - inversion H. auto.
  - destruct b; discriminate.
  - destruct a; discriminate.
  - inversion H as [[H1 H2]]. apply IH in H2. destruct H2 as [-> ->]. auto.
Qed.
Lemma no_cc_snoc n c : no_cc n -> (ends_colon n -> c <> ":"%char) -> no_cc (n ++ String c "").
Proof.
  intros Hn He (a & b & H). destruct (String.eqb_spec b "") as [->|Hb].
  - change (a ++ "::" ++ "")%string with (a ++ "::")%string in H. replace (a ++ "::")%string with ((a ++ ":") ++ String ":" "")%string in H by (rewrite sapp_assoc; reflexivity).
    apply sapp_end in H. destruct H as [-> ->]. apply He; [now exists a|reflexivity].
  - assert (G : exists b' x, b = (b' ++ String x "")%string).
    { clear -Hb. induction b as [|c b IH]; [congruence|]. destruct (String.eqb_spec b "") as [->|Hn]; [exists "", c; reflexivity|]. destruct (IH Hn) as (b' & x & ->). exists (String c b'), x. reflexivity. }
    destruct G as (b' & x & ->). apply Hn. exists a, b'. rewrite <- !sapp_assoc in H. apply sapp_end in H. destruct H as [-> _]. rewrite sapp_assoc. reflexivity.
Qed.
Lemma no_cc_nil : no_cc "".
Proof. intros (a & b & H). destruct a; discriminate. Qed.
Lemma no_cc_tail c n : no_cc (String c n) -> no_cc n.
Proof. intros H (a & b & ->). apply H. exists (String c a), b. reflexivity. Qed.
Lemma no_cc_head n : no_cc (String ":" n) -> ~ starts_colon n.
Proof. intros H (r & ->). apply H. exists "", r. reflexivity. Qed.
Lemma ends_colon_cons c n : ends_colon n -> ends_colon (String c n).
Proof. intros (a & ->). exists (String c a). reflexivity. Qed.
Lemma ends_colon_snoc n c : ends_colon (n ++ String c "") -> c = ":"%char.
Proof. intros (a & H). apply (sapp_end n c a ":") in H. apply H. Qed.
Lemma has_char_app x a b : has_char x (a ++ b) <-> has_char x a \/ has_char x b.
Proof. induction a as [|c a IH]; simpl; [tauto|]. rewrite IH. tauto. Qed.

Lemma split_cc_splits : forall n s cur, String.length s <= n -> ~ has_char "." (cur ++ s) -> no_cc cur -> (ends_colon cur -> ~ starts_colon s) -> splits (split_cc s cur) (cur ++ s).
Proof.
  induction n as [|n IH]; intros s cur Hn Hd Hc He.
  - destruct s; [|simpl in Hn; lia]. simpl. rewrite sapp_nil in *. constructor. split; assumption.
  - destruct s as [|c r]; [simpl; rewrite sapp_nil in *; constructor; split; assumption|].
    assert (Hc' : no_cc (cur ++ String c "")) by (apply no_cc_snoc; [exact Hc|intros H1 ->; apply (He H1); now exists r]).
    assert (Hstep : (c = ":"%char -> ~ starts_colon r) -> splits (split_cc r (cur ++ String c "")) (cur ++ String c r)).
    { intros Hr. replace (cur ++ String c r)%string with ((cur ++ String c "") ++ r)%string by (rewrite sapp_assoc; reflexivity).
      apply IH; [simpl in Hn; lia| |exact Hc'|intros H1; apply ends_colon_snoc in H1; auto]. rewrite sapp_assoc. exact Hd. }
    cbn [split_cc]. destruct r as [|c2 r2].
    + apply Hstep. intros _ (x & H). discriminate.
    + destruct (Ascii.eqb_spec c ":") as [->|H1]; [destruct (Ascii.eqb_spec c2 ":") as [->|H2]|]; simpl andb; cbn iota.
      * apply (spl_colons cur (split_cc r2 "") r2).
        { split; [|exact Hc]. intros H. apply Hd. apply has_char_app. now left. }
        { intros H. apply (He H). now exists (String ":" r2). }
        apply (IH r2 ""); [simpl in Hn; lia| |exact no_cc_nil|intros (a & H); destruct a; discriminate]. simpl. intros H. apply Hd. apply has_char_app. right. simpl. auto.
      * apply Hstep. intros _ (x & H). inversion H. congruence.
      * apply Hstep. intros H. congruence.
Qed.
Lemma splits_dot l1 s1 l2 s2 : splits l1 s1 -> splits l2 s2 -> splits (l1 ++ l2) (s1 ++ "." ++ s2).
Proof. induction 1 as [n Hn|n l r Hn H IH|n l r Hn He H IH]; intros H2; [now apply spl_dot| |]; rewrite !sapp_assoc; [apply spl_dot|apply spl_colons]; auto. Qed.
Lemma split_dot_splits : forall s cur, ~ has_char "." cur -> splits (flat_map (fun s => split_cc s "") (split_dot s cur)) (cur ++ s).
Proof.
  assert (Hone : forall cur, ~ has_char "." cur -> splits (split_cc cur "") cur).
  { intros cur H. apply (split_cc_splits (String.length cur) cur ""); [lia|exact H|exact no_cc_nil|intros (a & Ha); destruct a; discriminate]. }
  induction s as [|c r IH]; intros cur Hc; simpl.
  - rewrite app_nil_r, sapp_nil. apply Hone, Hc.
  - destruct (Ascii.eqb_spec c ".") as [->|H].
    + simpl. apply (splits_dot _ cur _ r); [apply Hone, Hc|]. apply (IH ""). simpl. tauto.
    + replace (cur ++ String c r)%string with ((cur ++ String c "") ++ r)%string by (rewrite sapp_assoc; reflexivity).
      apply IH. rewrite has_char_app. simpl. intros [H1|[H1|[]]]; [exact (Hc H1)|congruence].
Qed.
Lemma splits_cc_end n : no_cc n -> forall cur, split_cc n cur = [(cur ++ n)%string].
Proof.
  induction n as [|c n IH]; intros H cur; simpl; [now rewrite sapp_nil|].
  assert (E : split_cc n (cur ++ String c "") = [(cur ++ String c n)%string]) by (rewrite (IH (no_cc_tail _ _ H)); rewrite sapp_assoc; reflexivity).
  destruct n as [|c2 n2]; [exact E|]. destruct (Ascii.eqb_spec c ":") as [->|Hc]; [|exact E].
  destruct (Ascii.eqb_spec c2 ":") as [->|Hc2]; [|exact E]. exfalso. apply (no_cc_head _ H). now exists n2.
Qed.
Lemma splits_cc_name n r : no_cc n -> ~ ends_colon n -> forall cur, split_cc (n ++ "::" ++ r) cur = (cur ++ n)%string :: split_cc r "".
Proof.
  induction n as [|c n IH]; intros H He cur.
  - simpl. rewrite sapp_nil. reflexivity.
  - specialize (IH (no_cc_tail _ _ H) (fun H1 => He (ends_colon_cons _ _ H1)) (cur ++ String c "")%string). rewrite sapp_assoc in IH.
    change ((String c n ++ "::" ++ r)%string) with (String c (n ++ "::" ++ r)).
    cbn [split_cc]. destruct (n ++ "::" ++ r)%string as [|c2 r2] eqn:E; [destruct n; discriminate|].
    destruct (Ascii.eqb_spec c ":") as [->|Hc]; [|simpl andb; cbn iota; exact IH].
    destruct (Ascii.eqb_spec c2 ":") as [->|Hc2]; [|simpl andb; cbn iota; exact IH]. exfalso.
    destruct n as [|c3 n3]; [apply He; exists ""; reflexivity|]. inversion E; subst. apply (no_cc_head _ H). now exists n3.
Qed.
Lemma splits_exact l s : splits l s <-> flat_map (fun s => split_cc s "") (split_dot s "") = l.
Proof.
  split; [|intros <-; apply (split_dot_splits s ""); simpl; tauto].
  induction 1 as [n [H1 H2]|n l r [H1 H2] H IH|n l r [H1 H2] He H IH].
  - rewrite <- (sapp_nil n) at 1. rewrite split_dot_name by exact H1. simpl. rewrite app_nil_r. apply splits_cc_end, H2.
  - rewrite split_dot_name by exact H1. simpl ("" ++ n)%string. change ("." ++ r)%string with (String "." r). simpl split_dot. cbn [flat_map].
    rewrite splits_cc_end by exact H2. rewrite IH. reflexivity.
  - rewrite split_dot_name by exact H1. simpl ("" ++ n)%string. change ("::" ++ r)%string with (String ":" (String ":" r)). cbn [split_dot]. simpl Ascii.eqb. cbn iota.
    destruct (split_dot_cur r ((n ++ ":") ++ ":")) as (h & t & E1 & E2). rewrite E2. rewrite E1 in IH. cbn [flat_map] in *.
    rewrite !sapp_assoc. change (":" ++ ":" ++ h)%string with ("::" ++ h)%string. rewrite (splits_cc_name n h H2 He ""). cbn [app]. rewrite IH. reflexivity.
Qed.

Definition name_res (s : string) : res string := if String.eqb s "" then Err ErrFlavorName else Ok s.
Lemma names_ok l : Forall (fun n => n <> "") l -> mapR name_res l = Ok l.
Proof.
  induction 1 as [|n l H _ IH]; [reflexivity|]. cbn [mapR]. unfold name_res at 1. destruct (String.eqb_spec n ""); [congruence|].
  simpl. rewrite IH. reflexivity.
Qed.
Lemma names_inv l r : mapR name_res l = Ok r -> r = l /\ Forall (fun n => n <> "") l.
Proof.
  revert r. induction l as [|n l IH]; intros r H; [injection H as <-; auto|]. cbn [mapR] in H.
  unfold name_res at 1 in H. destruct (String.eqb_spec n ""); [discriminate|]. simpl in H.
  destruct (mapR name_res l) as [r'| |] eqn:E; try discriminate. simpl in H. injection H as <-.
  destruct (IH r' eq_refl) as [-> HF]. split; [reflexivity|]. constructor; assumption.
Qed.
Lemma names_err l : (exists n, In n l /\ n = "") -> mapR name_res l = Err ErrFlavorName.
Proof.
  induction l as [|n l IH]; intros (m & Hin & ->); [destruct Hin|]. cbn [mapR]. unfold name_res at 1.
  destruct (String.eqb_spec n ""); [reflexivity|]. destruct Hin as [Hin|Hin]; [congruence|]. simpl. rewrite IH; [reflexivity|].
  exists ""; auto.
Qed.

Lemma string_path_sound s l : flavor_path_of_string s = Ok l -> joined l s /\ Forall (fun n => n <> "") l.
Proof.
  unfold flavor_path_of_string. intros H. apply names_inv in H. destruct H as [-> HF]. split; [|exact HF].
  apply (split_dot_joined s "").
Qed.
Lemma string_path_complete s l : joined l s -> Forall simple_name l -> Forall (fun n => n <> "") l -> flavor_path_of_string s = Ok l.
Proof. intros H1 H2 H3. unfold flavor_path_of_string. rewrite (split_names l s H1 H2). apply (names_ok l H3). Qed.
Lemma string_path_err s l : joined l s -> Forall simple_name l -> In "" l -> flavor_path_of_string s = Err ErrFlavorName.
Proof. intros H1 H2 H3. unfold flavor_path_of_string. rewrite (split_names l s H1 H2). apply (names_err l). eauto. Qed.

Lemma string_path_splits s l : flavor_path_of_string s = Ok l <-> splits l s /\ Forall (fun n => n <> "") l.
Proof.
  unfold flavor_path_of_string. rewrite splits_exact. split.
  - intros H. apply names_inv in H. destruct H as [-> HF]. auto.
  - intros [-> HF]. apply (names_ok l HF).
Qed.
Lemma string_path_bad s l : splits l s -> In "" l -> flavor_path_of_string s = Err ErrFlavorName.
Proof. intros H1 H2. apply splits_exact in H1. unfold flavor_path_of_string. rewrite H1. apply (names_err l). eauto. Qed.
Lemma joined_splits l s : joined l s -> Forall simple_name l -> splits l s.
Proof. intros H1 H2. apply splits_exact, split_names; assumption. Qed.

Lemma path_path p l : flavor_path_of_path p = Ok l <-> l = p_idents p /\ Forall (fun s => seg_args s = [] /\ seg_id s <> "") (p_segs p).
Proof.
  unfold flavor_path_of_path, p_idents. revert l. induction (p_segs p) as [|s r IH]; intros l.
  - simpl. split; [intros H; injection H as <-; auto|intros [-> _]; reflexivity].
  - cbn [mapR map]. destruct (seg_args s) as [|a args] eqn:Ea.
    + destruct (String.eqb_spec (seg_id s) "") as [E|E].
      * simpl. split; [discriminate|]. intros [_ HF]. inversion HF as [|? ? [_ H] _]; subst. congruence.
      * simpl. split.
        -- intros H. apply bindR_Ok in H. destruct H as (ys & H1 & H2). injection H2 as <-. apply IH in H1. destruct H1 as [-> HF].
           split; [reflexivity|]. constructor; auto.
        -- intros [-> HF]. inversion HF as [|? ? _ HF2]; subst.
           rewrite (proj2 (IH (map seg_id r)) (conj eq_refl HF2)). reflexivity.
    + simpl. split; [discriminate|]. intros [_ HF]. inversion HF as [|? ? [H _] _]; subst. congruence.
Qed.

(** ** Look-up *)
Lemma descend_under l : forall f g, descend f l = Some g <-> under f l g.
Proof.
  induction l as [|n l IH]; intros f g; simpl.
  - split; [intros H; injection H as <-; constructor|inversion 1; reflexivity].
  - destruct f as [c subs]. simpl. split.
    + destruct (mget n subs) as [f'|] eqn:E; [|discriminate]. intros H. econstructor; [exact E|]. apply IH, H.
    + inversion 1; subst. match goal with H : mget n subs = _ |- _ => rewrite H end. apply IH. assumption.
Qed.
Lemma lookup_at st p f : get_flavor_inner st p = Some f <-> at_path st p f.
Proof.
  destruct p as [|n l]; simpl.
  - split; [discriminate|inversion 1].
  - split.
    + destruct (mget n st) as [g|] eqn:E; [|discriminate]. intros H. econstructor; [exact E|]. apply descend_under, H.
    + inversion 1; subst. match goal with H : mget n st = _ |- _ => rewrite H end. apply descend_under. assumption.
Qed.
Lemma get_flavor_ok st p f : get_flavor st p = Ok f <-> at_path st p f.
Proof.
  rewrite <- lookup_at. unfold get_flavor. destruct (get_flavor_inner st p); split; congruence.
Qed.
Lemma get_flavor_err st p : ~ (exists f, at_path st p f) <-> get_flavor st p = Err (ErrFlavorNotFound p (all_flavor_names st)).
Proof.
  unfold get_flavor. destruct (get_flavor_inner st p) as [f|] eqn:E.
  - split; [|discriminate]. intros H. exfalso. apply H. exists f. apply lookup_at, E.
  - split; [reflexivity|]. intros _ (f & H). apply lookup_at in H. congruence.
Qed.

(** the names listed in the error are those of the flavors that exist *)
Fixpoint cc_join (l : list string) : string :=
  match l with [] => "" | [n] => n | n :: r => (n ++ "::" ++ cc_join r)%string end.

Section FlavorInd.
  Variable P : flavor -> Prop.
  Hypothesis H : forall c subs, Forall (fun nf => P (snd nf)) subs -> P (Flavor c subs).
  Fixpoint flavor_ind' (f : flavor) : P f :=
    match f with
    | Flavor c subs => H c subs ((fix go l : Forall (fun nf => P (snd nf)) l :=
        match l with [] => Forall_nil _ | x :: r => Forall_cons x (flavor_ind' (snd x)) (go r) end) subs)
    end.
End FlavorInd.

Inductive wf_flavor : flavor -> Prop :=
| wf_fl : forall c subs, NoDup (keys subs) -> Forall (fun nf => wf_flavor (snd nf)) subs -> wf_flavor (Flavor c subs).
Definition wf_store (st : smap flavor) : Prop := NoDup (keys st) /\ Forall (fun nf => wf_flavor (snd nf)) st.

Lemma in_mget_keys {A} k (v : A) (m : smap A) : NoDup (keys m) -> (In (k, v) m <-> mget k m = Some v).
Proof. intros H. split; [apply in_mget, H|apply mget_in]. Qed.

Lemma collect_spec : forall f, wf_flavor f -> forall pre s,
  In s (collect_names f pre) <-> exists p g, p <> [] /\ under f p g /\ s = (pre ++ "::" ++ cc_join p)%string.
Proof.
  induction f as [c subs IH] using flavor_ind'. intros Hwf pre s. inversion Hwf as [? ? Hnd HFw]; subst.
  cbn [collect_names]. rewrite in_flat_map. split.
  - intros ([n g] & Hin & Hs). cbn [fst snd] in Hs. rewrite Forall_forall in IH, HFw.
    pose proof (proj1 (in_mget_keys n g subs Hnd) Hin) as Hg.
    destruct Hs as [Hs|Hs].
    + exists [n], g. split; [discriminate|]. split; [econstructor; [exact Hg|constructor]|]. subst. reflexivity.
    + apply (IH (n, g) Hin (HFw _ Hin)) in Hs. destruct Hs as (p & h & Hp & Hu & ->). exists (n :: p), h. split; [discriminate|].
      split; [econstructor; [exact Hg|exact Hu]|]. cbn [cc_join fst snd]. destruct p; [congruence|]. rewrite !sapp_assoc. reflexivity.
  - intros (p & h & Hp & Hu & ->). inversion Hu as [f|c' subs' n g l f Hg Hu']; subst; [congruence|]. clear Hu. rename Hu' into Hu, h into f.
    exists (n, g). pose proof (mget_in _ _ _ Hg) as Hin. split; [exact Hin|]. cbn [fst snd].
    destruct l as [|n2 l].
    + left. reflexivity.
    + right. rewrite Forall_forall in IH, HFw. apply (IH (n, g) Hin (HFw _ Hin)). exists (n2 :: l), f. split; [discriminate|]. split; [exact Hu|].
      cbn [cc_join]. rewrite !sapp_assoc. reflexivity.
Qed.
Lemma names_spec st : wf_store st -> forall s, In s (all_flavor_names st) <-> exists p f, at_path st p f /\ s = cc_join p.
Proof.
  intros [Hnd HF] s. unfold all_flavor_names. rewrite in_flat_map. split.
  - intros ([n g] & Hin & Hs). cbn [fst snd] in Hs. pose proof (proj1 (in_mget_keys n g st Hnd) Hin) as Hg. destruct Hs as [<-|Hs].
    + exists [n], g. split; [econstructor; [exact Hg|constructor]|reflexivity].
    + rewrite Forall_forall in HF. apply (collect_spec g (HF _ Hin)) in Hs. destruct Hs as (p & h & Hp & Hu & ->).
      exists (n :: p), h. split; [econstructor; [exact Hg|exact Hu]|]. cbn [cc_join]. destruct p; [congruence|reflexivity].
  - intros (p & f & Hat & ->). destruct Hat as [n g l f Hg Hu]. exists (n, g). pose proof (mget_in _ _ _ Hg) as Hin. split; [exact Hin|].
    cbn [fst snd]. destruct l as [|n2 l]; [left; reflexivity|]. right. rewrite Forall_forall in HF.
    apply (collect_spec g (HF _ Hin)). exists (n2 :: l), f. split; [discriminate|]. split; [exact Hu|reflexivity].
Qed.
