(** Facts about association lists.  *)
From Coq Require Import String Ascii Bool Arith Lia Permutation List.
From Verif Require Import Base.
Import ListNotations.
Open Scope string_scope.
Open Scope list_scope.

Lemma mget_minsert {A} k k' (v : A) m : mget k (minsert k' v m) = if String.eqb k k' then Some v else mget k m.
Proof.
  induction m as [|[x y] m IH]; simpl.
  - reflexivity.
  - destruct (String.eqb_spec k' x) as [->|H]; simpl.
    + destruct (String.eqb_spec k x); reflexivity.
    + destruct (String.eqb_spec k x) as [->|H2]; [|exact IH]. destruct (String.eqb_spec x k'); [congruence|reflexivity].
Qed.
(** the last entry for a key wins *)
Fixpoint last_get {A} (k : string) (l : list (string * A)) : option A :=
  match l with
  | [] => None
  | (k', v) :: r => match last_get k r with Some w => Some w | None => if String.eqb k k' then Some v else None end
  end.
Lemma mget_mextend {A} k (l : list (string * A)) : forall m, mget k (mextend m l) = match last_get k l with Some v => Some v | None => mget k m end.
Proof.
  induction l as [|[k' v] l IH]; intros m; [reflexivity|]. unfold mextend in *. simpl. rewrite IH.
  destruct (last_get k l); [reflexivity|]. rewrite mget_minsert. destruct (String.eqb k k'); reflexivity.
Qed.
Lemma last_get_none {A} k (l : list (string * A)) : last_get k l = None <-> ~ In k (map fst l).
Proof.
  induction l as [|[k' v] l IH]; simpl; [tauto|]. destruct (last_get k l) as [w|].
  - split; [discriminate|]. intros H. exfalso. apply H. right. destruct (in_dec string_dec k (map fst l)) as [Hi|Hi]; [exact Hi|].
    apply IH in Hi. discriminate.
  - destruct (String.eqb_spec k k') as [->|Hn].
    + split; [discriminate|]. intros H; exfalso; apply H; now left.
    + split; [|reflexivity]. intros _ [H|H]; [congruence|]. apply IH in H; [exact H|reflexivity].
Qed.
Lemma last_get_nodup {A} k (l : list (string * A)) : NoDup (map fst l) -> last_get k l = mget k l.
Proof.
  induction l as [|[k' v] l IH]; intros H; [reflexivity|]. simpl in *. inversion H as [|? ? H1 H2]; subst.
  destruct (String.eqb_spec k k') as [->|Hn].
  - destruct (last_get k' l) eqn:E; [|reflexivity]. exfalso.
    assert (~ last_get k' l = None) by congruence. apply H0. apply last_get_none. exact H1.
  - rewrite <- IH by exact H2. destruct (last_get k l); reflexivity.
Qed.
Lemma keys_minsert {A} k (v : A) m : keys (minsert k v m) = if str_in k (keys m) then keys m else keys m ++ [k].
Proof.
  unfold keys. induction m as [|[x y] m IH]; [reflexivity|]. simpl. destruct (String.eqb_spec k x) as [->|H]; [reflexivity|].
  simpl. rewrite IH. unfold str_in. destruct (existsb (String.eqb k) (map fst m)); reflexivity.
Qed.
Lemma nodup_minsert {A} k (v : A) m : NoDup (keys m) -> NoDup (keys (minsert k v m)).
Proof.
  intros H. rewrite keys_minsert. destruct (str_in k (keys m)) eqn:E; [exact H|].
  apply Permutation_NoDup with (k :: keys m); [apply Permutation_cons_append|]. constructor; [|exact H].
  intros Hin. assert (str_in k (keys m) = true); [|congruence].
  unfold str_in. apply existsb_exists. exists k. split; [exact Hin|apply String.eqb_refl].
Qed.
Lemma nodup_mextend {A} (l : list (string * A)) : forall m, NoDup (keys m) -> NoDup (keys (mextend m l)).
Proof.
  induction l as [|[k v] l IH]; intros m H; [exact H|]. unfold mextend in *. simpl. apply IH, nodup_minsert, H.
Qed.
