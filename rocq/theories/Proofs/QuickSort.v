(** quicksort_by and introsort (sort.hpp:118-151). *)
From Verif Require Import Base.Cpp Model.Sort Spec.SortSpec Proofs.SortLemmas Proofs.InsertionSort.

Set Default Proof Using "Type".

Section proofs.
Context {A : Type} (mv : A -> A) (comp : A -> A -> bool).
Implicit Types l : list A.

Lemma wrap_succ p : (0 <= p < size_mod)%Z -> wrap (wrap (p - 1) + 1) = p.
Proof.
  intros H. unfold wrap. rewrite Zplus_mod_idemp_l.
  replace (p - 1 + 1)%Z with p by lia. by apply Z.mod_small.
Qed.

Lemma partition_wp l low high :
  low < high -> high < length l -> (Z.of_nat (length l) < size_mod)%Z ->
  wp (partition_by mv comp l low high) (fun '(a, piz) => exists p pivot,
     piz = Z.of_nat p /\ low <= p <= high /\ rperm low (S high) l a /\
     a !! p = Some pivot /\
     (forall t x, low <= t < p -> a !! t = Some x -> comp x pivot = true) /\
     (forall t x, p < t <= high -> a !! t = Some x -> comp x pivot = false)).
Proof.
  intros Hlh Hhl Hsz. unfold partition_by.
  destruct (lookup_lt_is_Some_2 l high Hhl) as [pivot Hpiv].
  apply wp_bind. eapply wp_get; [done|]. cbv beta zeta.
  apply wp_bind.
  apply (wp_for_up (fun j '(a, i) => exists p,
     low <= p <= j /\ i = wrap (Z.of_nat p - 1) /\ rperm low high l a /\
     (forall t x, low <= t < p -> a !! t = Some x -> comp x pivot = true) /\
     (forall t x, p <= t < j -> a !! t = Some x -> comp x pivot = false))).
  - exists low. split_and!; try lia; try done.
  - intros j [a i] Hj1 Hj2 (p & Hp & Hi & Hr & Hlt & Hge).
    assert (Hla := rperm_length _ _ _ _ Hr).
    destruct (lookup_lt_is_Some_2 a j) as [x Hx]; [lia|].
    apply wp_bind. eapply wp_get; [done|].
    destruct (comp x pivot) eqn:Hc.
    + rewrite Hi. rewrite wrap_succ by lia. rewrite Nat2Z.id.
      destruct (lookup_lt_is_Some_2 a p) as [z Hz]; [lia|].
      apply wp_bind. eapply swap_at_wp; [done|done|]. apply wp_ok.
      assert (Hlk := swap_lookup a p j z x). 
      exists (S p). split; [lia|]. split.
      { unfold wrap. rewrite Z.mod_small; lia. }
      split.
      { eapply rperm_trans; [exact Hr|]. apply swap_rperm; [lia|lia|done|done]. }
      split.
      * intros t y Ht Hy. rewrite Hlk in Hy by done. repeat case_decide; subst.
        -- injection Hy as <-. assert (p = j) as -> by lia. congruence.
        -- by injection Hy as <-.
        -- apply (Hlt t); [lia|done].
      * intros t y Ht Hy. rewrite Hlk in Hy by done. repeat case_decide; subst.
        -- injection Hy as <-. apply (Hge p); [lia|done].
        -- lia.
        -- apply (Hge t); [lia|done].
    + apply wp_ok. exists p. split; [lia|]. split; [done|]. split; [done|]. split; [done|].
      intros t y Ht Hy. destruct (decide (t = j)) as [->|].
      * congruence.
      * apply (Hge t); [lia|done].
  - replace (low + (high - low)) with high by lia.
    intros [a i] (p & Hp & Hi & Hr & Hlt & Hge).
    assert (Hla := rperm_length _ _ _ _ Hr).
    rewrite Hi. rewrite wrap_succ by lia. rewrite Nat2Z.id.
    assert (Hah : a !! high = Some pivot).
    { destruct Hr as [_ Ho]. rewrite Ho by lia. done. }
    destruct (lookup_lt_is_Some_2 a p) as [z Hz]; [lia|].
    apply wp_bind. eapply swap_at_wp; [done|done|]. apply wp_ok.
    assert (Hlk := swap_lookup a p high z pivot).
    exists p, pivot. split; [done|]. split; [lia|]. split.
    { eapply rperm_trans; [eapply rperm_weaken; [| |exact Hr]; lia|].
      apply swap_rperm; [lia|lia|done|done]. }
    split.
    { rewrite Hlk by done. case_decide; [|by rewrite decide_True by done]. subst. congruence. }
    split.
    + intros t x Ht Hx. rewrite Hlk in Hx by done. rewrite !decide_False in Hx by lia.
      apply (Hlt t); [lia|done].
    + intros t x Ht Hx. rewrite Hlk in Hx by done. case_decide.
      * injection Hx as <-. apply (Hge p); [lia|done].
      * rewrite decide_False in Hx by lia. apply (Hge t); [lia|done].
Qed.

Lemma quicksort_wp fuel : forall l low high,
  high < length l \/ high <= low -> (Z.of_nat (length l) < size_mod)%Z -> high - low < fuel ->
  wp (quicksort_by mv comp fuel l low high) (fun a => rperm low (S high) l a /\
      (strict_weak_order comp -> sorted_on comp low (S high) a)).
Proof.
  induction fuel as [|fuel IH]; intros l low high Hh Hsz Hf; [lia|].
  cbn [quicksort_by]. case_decide as Hlt.
  2:{ apply wp_ok. split; [apply rperm_refl|]. intros _ i j. lia. }
  apply wp_bind. eapply wp_mono; [apply partition_wp; lia|].
  intros [a piz] (p & pivot & -> & Hp & Hr & Hap & Hless & Hge).
  rewrite Nat2Z.id.
  assert (Hla := rperm_length _ _ _ _ Hr).
  apply wp_bind.
  apply (wp_mono _ (fun a1 => rperm low p a a1 /\ (strict_weak_order comp -> sorted_on comp low p a1))).
  { case_decide as Hp0.
    - eapply wp_mono; [apply IH; lia|]. cbv beta.
      replace (S (p - 1)) with p by lia. auto.
    - apply wp_ok. split; [apply rperm_refl|]. intros _ i j. lia. }
  intros a1 [Hr1 Hs1].
  assert (Hla1 := rperm_length _ _ _ _ Hr1).
  eapply wp_mono; [apply IH; lia|]. cbv beta.
  intros a2 [Hr2 Hs2].
  split.
  { eapply rperm_trans; [exact Hr|].
    eapply rperm_trans; (eapply rperm_weaken; [| |eassumption]); lia. }
  intros Hswo. specialize (Hs1 Hswo). specialize (Hs2 Hswo).
  assert (Hlow2 : forall t, t <= p -> a2 !! t = a1 !! t).
  { intros t Ht. apply Hr2. lia. }
  assert (Hhi1 : forall t, p <= t -> a1 !! t = a !! t).
  { intros t Ht. apply Hr1. lia. }
  assert (Hpiv : a2 !! p = Some pivot) by (rewrite Hlow2, Hhi1 by lia; done).
  assert (Hless2 : forall t x, low <= t < p -> a2 !! t = Some x -> comp x pivot = true).
  { intros t x Ht Hx. rewrite Hlow2 in Hx by lia.
    apply (rperm_forall (fun x => comp x pivot = true) low p a a1 Hr1) with (i := t); try done. }
  assert (Hge2 : forall t x, p < t <= high -> a2 !! t = Some x -> comp x pivot = false).
  { intros t x Ht Hx.
    apply (rperm_forall (fun x => comp x pivot = false) (p + 1) (S high) a1 a2 Hr2) with (i := t);
      [|lia|done].
    intros s y Hs Hy. rewrite Hhi1 in Hy by lia. apply (Hge s); [lia|done]. }
  intros i j x y Hi Hij Hj Hx Hy.
  destruct (decide (j < p)) as [Hjp|Hjp].
  { rewrite Hlow2 in Hx, Hy by lia. apply (Hs1 i j); try done; lia. }
  destruct (decide (p < i)) as [Hip|Hip].
  { apply (Hs2 i j); try done; lia. }
  destruct (decide (i = p)) as [->|Hnip].
  { assert (x = pivot) as -> by congruence. apply (Hge2 j); [lia|done]. }
  assert (Hxp : comp pivot x = false).
  { apply swo_asym; [done|]. apply (Hless2 i); [lia|done]. }
  destruct (decide (j = p)) as [->|Hnjp].
  { assert (y = pivot) as -> by congruence. done. }
  apply (swo_ge_trans comp Hswo x pivot y); [done|]. apply (Hge2 j); [lia|done].
Qed.

Lemma introsort_wp l : (Z.of_nat (length l) < size_mod)%Z ->
  wp (introsort_by mv comp l) (fun a => Permutation l a /\ (strict_weak_order comp -> sorted_by comp a)).
Proof.
  intros Hsz. unfold introsort_by. case_decide as Hl.
  - apply wp_ok. split; [done|]. intros _.
    destruct l as [|x [|y l]]; simpl in Hl; [apply sorted_by_nil| |lia].
    apply sorted_by_cons. split; [done|apply sorted_by_nil].
  - apply wp_bind. eapply wp_mono; [apply quicksort_wp; lia|]. cbv beta.
    intros a [[Hp _] _]. eapply wp_mono; [apply insertion_sort_by_wp|].
    intros a' [Hp' Hs]. split; [by etrans|]. intros Hswo. by apply Hs.
Qed.

Lemma quicksort_full_wp l : (Z.of_nat (length l) < size_mod)%Z ->
  wp (quicksort mv comp l) (fun a => Permutation l a /\ (strict_weak_order comp -> sorted_by comp a)).
Proof.
  intros Hsz. unfold quicksort. case_decide as Hl.
  - eapply wp_mono; [apply quicksort_wp; lia|]. cbv beta.
    intros a [Hr Hs]. assert (Hla := rperm_length _ _ _ _ Hr).
    split; [by destruct Hr|]. intros Hswo. apply sorted_on_full.
    specialize (Hs Hswo). by replace (S (length l - 1)) with (length a) in Hs by lia.
  - apply wp_ok. destruct l; [|done]. split; [done|]. intros _. apply sorted_by_nil.
Qed.
End proofs.
