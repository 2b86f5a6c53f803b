(** Shared lemmas for the sorting proofs. *)
From Verif Require Import Base.Cpp Model.Sort Spec.SortSpec.

Set Default Proof Using "Type".

Section lemmas.
Context {A : Type}.
Implicit Types l : list A.

(** [l'] permutes positions lo (inclusive) .. hi (exclusive) of [l]. *)
Definition rperm (lo hi : nat) (l l' : list A) : Prop :=
  Permutation l l' /\ (forall i, i < lo \/ hi <= i -> l' !! i = l !! i).

Lemma rperm_refl lo hi l : rperm lo hi l l.
Proof. split; auto. Qed.

Lemma rperm_trans lo hi l1 l2 l3 : rperm lo hi l1 l2 -> rperm lo hi l2 l3 -> rperm lo hi l1 l3.
Proof.
  intros [H1 H1'] [H2 H2']. split; [by etrans|].
  intros i Hi. rewrite H2' by done. by apply H1'.
Qed.

Lemma rperm_weaken lo hi lo' hi' l l' :
  lo' <= lo -> hi <= hi' -> rperm lo hi l l' -> rperm lo' hi' l l'.
Proof. intros ? ? [H1 H2]. split; [done|]. intros i Hi. apply H2. lia. Qed.

Lemma rperm_length lo hi l l' : rperm lo hi l l' -> length l' = length l.
Proof. intros [H _]. by rewrite H. Qed.

Lemma insert_swap_perm l i j x y :
  l !! i = Some x -> l !! j = Some y -> Permutation l (<[j:=x]> (<[i:=y]> l)).
Proof.
  intros Hi Hj.
  assert (Hil : i < length l) by (by eapply lookup_lt_Some).
  assert (Hjl : j < length l) by (by eapply lookup_lt_Some).
  destruct (decide (i = j)) as [->|Hne].
  { rewrite Hi in Hj. injection Hj as ->. rewrite list_insert_insert.
    by rewrite list_insert_id. }
  apply Permutation_inj. split; [by rewrite !insert_length|].
  exists (fun k => if decide (k = i) then j else if decide (k = j) then i else k).
  split.
  - intros a b. repeat case_decide; congruence.
  - intros k. repeat case_decide; subst.
    + by rewrite list_lookup_insert by (by rewrite insert_length).
    + rewrite list_lookup_insert_ne by congruence. by rewrite list_lookup_insert.
    + by rewrite !list_lookup_insert_ne by congruence.
Qed.

Lemma swap_at_wp (mv : A -> A) l i j x y (Q : list A -> Prop) :
  l !! i = Some x -> l !! j = Some y ->
  Q (<[j:=x]> (<[i:=y]> l)) -> wp (swap_at mv l i j) Q.
Proof.
  intros Hi Hj HQ.
  assert (Hil : i < length l) by (by eapply lookup_lt_Some).
  assert (Hjl : j < length l) by (by eapply lookup_lt_Some).
  unfold swap_at.
  apply wp_bind. eapply wp_get; [done|].
  apply wp_bind. apply wp_put; [done|].
  destruct (decide (i = j)) as [->|Hne].
  - apply wp_bind. eapply wp_get; [by apply list_lookup_insert|].
    apply wp_bind. apply wp_put; [by rewrite insert_length|].
    apply wp_bind. apply wp_put; [by rewrite !insert_length|].
    apply wp_put; [by rewrite !insert_length|].
    rewrite !list_insert_insert. by rewrite list_insert_insert in HQ.
  - apply wp_bind. eapply wp_get; [by rewrite list_lookup_insert_ne|].
    apply wp_bind. apply wp_put; [by rewrite insert_length|].
    apply wp_bind. apply wp_put; [by rewrite !insert_length|].
    apply wp_put; [by rewrite !insert_length|].
    rewrite (list_insert_commute (<[i:=mv x]> l) i j) by done.
    rewrite !list_insert_insert. done.
Qed.

Lemma swap_rperm lo hi l i j x y :
  lo <= i < hi -> lo <= j < hi -> l !! i = Some x -> l !! j = Some y ->
  rperm lo hi l (<[j:=x]> (<[i:=y]> l)).
Proof.
  intros Hi Hj Hx Hy. split; [by apply insert_swap_perm|].
  intros k Hk. rewrite !list_lookup_insert_ne by lia. done.
Qed.

Lemma swap_lookup l i j x y k :
  l !! i = Some x -> l !! j = Some y ->
  (<[j:=x]> (<[i:=y]> l)) !! k =
    if decide (k = j) then Some x else if decide (k = i) then Some y else l !! k.
Proof.
  intros Hi Hj.
  assert (Hil : i < length l) by (by eapply lookup_lt_Some).
  assert (Hjl : j < length l) by (by eapply lookup_lt_Some).
  repeat case_decide; subst.
  - by rewrite list_lookup_insert by (by rewrite insert_length).
  - rewrite list_lookup_insert_ne by congruence. by rewrite list_lookup_insert.
  - by rewrite !list_lookup_insert_ne by congruence.
Qed.

(** Splitting off a range. *)
Lemma split_range l lo hi : lo <= hi -> hi <= length l ->
  l = take lo l ++ take (hi - lo) (drop lo l) ++ drop hi l.
Proof.
  intros H1 H2. rewrite <- (take_drop lo l) at 1. f_equal.
  rewrite <- (take_drop (hi - lo) (drop lo l)) at 1. f_equal.
  rewrite drop_drop. f_equal. lia.
Qed.

Lemma rperm_seg lo hi l l' :
  lo <= hi -> hi <= length l -> rperm lo hi l l' ->
  take lo l' = take lo l /\ drop hi l' = drop hi l /\
  Permutation (take (hi - lo) (drop lo l)) (take (hi - lo) (drop lo l')).
Proof.
  intros H1 H2 [HP Hout].
  assert (Hlen : length l' = length l) by (by rewrite HP).
  assert (Ht : take lo l' = take lo l).
  { apply list_eq. intros i. destruct (decide (i < lo)).
    - rewrite !lookup_take by done. apply Hout. lia.
    - rewrite !lookup_take_ge by lia. done. }
  assert (Hd : drop hi l' = drop hi l).
  { apply list_eq. intros i. rewrite !lookup_drop. apply Hout. lia. }
  split; [done|]. split; [done|].
  rewrite (split_range l lo hi), (split_range l' lo hi) in HP by lia.
  rewrite Ht, Hd in HP. apply Permutation_app_inv_l in HP.
  by apply Permutation_app_inv_r in HP.
Qed.

Lemma seg_lookup l lo hi i : lo <= hi ->
  take (hi - lo) (drop lo l) !! i = if decide (lo + i < hi) then l !! (lo + i) else None.
Proof.
  intros H. case_decide.
  - rewrite lookup_take by lia. by rewrite lookup_drop.
  - rewrite lookup_take_ge by lia. done.
Qed.

(** A predicate true of every element of the range before is so after. *)
Lemma rperm_forall (P : A -> Prop) lo hi l l' :
  rperm lo hi l l' ->
  (forall i x, lo <= i < hi -> l !! i = Some x -> P x) ->
  (forall i x, lo <= i < hi -> l' !! i = Some x -> P x).
Proof.
  intros Hr HP i x Hi Hx.
  set (hi' := Nat.min hi (length l)).
  assert (Hlen := rperm_length _ _ _ _ Hr).
  assert (Hil : i < length l') by (by eapply lookup_lt_Some).
  assert (Hr' : rperm lo hi' l l').
  { destruct Hr as [Hp Ho]. split; [done|]. intros k Hk.
    destruct (decide (k < lo \/ hi <= k)); [by apply Ho|].
    rewrite !lookup_ge_None_2 by lia. done. }
  destruct (rperm_seg lo hi' l l') as (_ & _ & Hs); [lia|lia|done|].
  assert (Hin : x ∈ take (hi' - lo) (drop lo l')).
  { apply elem_of_list_lookup. exists (i - lo).
    rewrite seg_lookup by lia. rewrite decide_True by lia.
    by replace (lo + (i - lo)) with i by lia. }
  rewrite <- Hs in Hin. apply elem_of_list_lookup in Hin as [k Hk].
  rewrite seg_lookup in Hk by lia. case_decide; [|done].
  eapply (HP (lo + k)); [lia|done].
Qed.

(** Sorted on a range of indices lo..hi-1. *)
Definition sorted_on (comp : A -> A -> bool) (lo hi : nat) (l : list A) : Prop :=
  forall i j x y, lo <= i -> i < j -> j < hi ->
    l !! i = Some x -> l !! j = Some y -> comp y x = false.

Lemma sorted_on_is_range comp lo hi l l' :
  lo <= S hi -> S hi <= length l -> rperm lo (S hi) l l' -> sorted_on comp lo (S hi) l' ->
  is_range_sort_of comp lo hi l l'.
Proof.
  intros H1 H2 Hr Hs.
  destruct (rperm_seg lo (S hi) l l') as (Ht & Hd & Hp); [lia|lia|done|].
  assert (Hlen := rperm_length _ _ _ _ Hr).
  exists (take lo l), (take (S hi - lo) (drop lo l)), (take (S hi - lo) (drop lo l')),
    (drop (S hi) l).
  split; [by apply split_range|]. split.
  { rewrite <- Ht, <- Hd. apply split_range; lia. }
  split; [rewrite take_length; lia|].
  split; [rewrite take_length, drop_length; lia|].
  split; [done|].
  intros i j x y Hij Hx Hy.
  rewrite seg_lookup in Hx, Hy by lia. repeat case_decide; try done.
  eapply (Hs (lo + i) (lo + j)); eauto; lia.
Qed.

Lemma sorted_on_full comp l : sorted_on comp 0 (length l) l -> sorted_by comp l.
Proof.
  intros H i j x y Hij Hx Hy. apply (H i j); [lia|lia| |done|done]. by eapply lookup_lt_Some.
Qed.

Lemma sorted_by_nil comp : sorted_by comp ([] : list A).
Proof. intros i j x y _ H. done. Qed.

Lemma sorted_by_cons comp x l :
  sorted_by comp (x :: l) <-> Forall (fun y => comp y x = false) l /\ sorted_by comp l.
Proof.
  split.
  - intros H. split.
    + apply Forall_lookup. intros i y Hy. apply (H 0 (S i)); [lia|done|done].
    + intros i j a b Hij Ha Hb. apply (H (S i) (S j)); [lia|done|done].
  - intros [Hf Hs] i j a b Hij Ha Hb. destruct j as [|j]; [lia|].
    destruct i as [|i]; simpl in *.
    + injection Ha as ->. rewrite Forall_lookup in Hf. eauto.
    + apply (Hs i j); [lia|done|done].
Qed.

Lemma sorted_by_app comp l1 l2 :
  sorted_by comp (l1 ++ l2) <->
  sorted_by comp l1 /\ sorted_by comp l2 /\ (forall x y, x ∈ l1 -> y ∈ l2 -> comp y x = false).
Proof.
  induction l1 as [|a l1 IH]; simpl.
  - split; [|by intros (_ & ? & _)].
    intros H. split; [apply sorted_by_nil|]. split; [done|]. set_solver.
  - rewrite !sorted_by_cons, Forall_app, IH. rewrite !Forall_forall. set_solver.
Qed.

(** Strict weak orders. *)
Lemma swo_asym comp (H : strict_weak_order comp) (x y : A) :
  comp x y = true -> comp y x = false.
Proof.
  intros Hxy. destruct (comp y x) eqn:Hyx; [|done].
  pose proof (swo_trans _ H _ _ _ Hxy Hyx) as Hxx.
  by rewrite (swo_irrefl _ H) in Hxx.
Qed.

(** "not less" is transitive. *)
Lemma swo_ge_trans comp (H : strict_weak_order comp) (x y z : A) :
  comp y x = false -> comp z y = false -> comp z x = false.
Proof.
  intros Hyx Hzy. destruct (comp z x) eqn:Hzx; [|done].
  destruct (comp x y) eqn:Hxy.
  { pose proof (swo_trans _ H _ _ _ Hzx Hxy). congruence. }
  destruct (comp y z) eqn:Hyz.
  { pose proof (swo_trans _ H _ _ _ Hyz Hzx). congruence. }
  destruct (swo_incomp_trans _ H x y z); congruence.
Qed.
End lemmas.
