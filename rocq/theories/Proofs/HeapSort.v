(** heapsort_by (sort.hpp:56-90). *)
From Verif Require Import Base.Cpp Model.Sort Spec.SortSpec Proofs.SortLemmas.

Set Default Proof Using "Type".

Section proofs.
Context {A : Type} (mv : A -> A) (comp : A -> A -> bool).
Implicit Types l : list A.

(** Every parent at index >= k, except [skip], is not less than its children below n. *)
Definition heap_except (l : list A) (n k : nat) (skip : nat -> Prop) : Prop :=
  forall p c x y, k <= p -> ~ skip p -> (c = 2 * p + 1 \/ c = 2 * p + 2) -> c < n ->
    l !! p = Some x -> l !! c = Some y -> comp x y = false.

Definition grand_ok (l : list A) (n k i : nat) : Prop :=
  forall p c x y, k <= p -> (i = 2 * p + 1 \/ i = 2 * p + 2) ->
    (c = 2 * i + 1 \/ c = 2 * i + 2) -> c < n ->
    l !! p = Some x -> l !! c = Some y -> comp x y = false.

Lemma max_heapify_wp fuel : forall l n i,
  n <= length l -> i < n -> n - i < fuel ->
  wp (max_heapify_by mv comp fuel l n i) (fun l' => rperm i n l l' /\
     (strict_weak_order comp -> forall k, k <= i ->
        heap_except l n k (eq i) -> grand_ok l n k i -> heap_except l' n k (fun _ => False))).
Proof.
  induction fuel as [|fuel IH]; intros l n i Hn Hi Hf; [lia|].
  cbn [max_heapify_by].
  destruct (lookup_lt_is_Some_2 l i) as [xi Hxi]; [lia|].
  set (lft := 2 * i + 1). set (rgt := 2 * i + 2).
  apply wp_bind.
  apply (wp_mono _ (fun g => (g = i /\ (forall y, lft < n -> l !! lft = Some y -> comp xi y = false)) \/
                   (g = lft /\ lft < n /\ exists y, l !! lft = Some y /\ comp xi y = true))).
  { case_decide as Hd.
    - apply wp_bind. eapply wp_get; [done|].
      apply wp_bind, wp_get_lt; [lia|]. intros y Hy.
      apply wp_ok. destruct (comp xi y) eqn:Hc; [right; eauto|left]. split; [done|].
      intros y' _ Hy'. congruence.
    - apply wp_ok. left. split; [done|]. lia. }
  intros g Hg.
  apply wp_bind.
  apply (wp_mono _ (fun m =>
     (m = i /\ (forall y, lft < n -> l !! lft = Some y -> comp xi y = false) /\
               (forall y, rgt < n -> l !! rgt = Some y -> comp xi y = false)) \/
     ((m = lft \/ m = rgt) /\ m < n /\ exists z, l !! m = Some z /\
        (strict_weak_order comp -> comp xi z = true /\
           forall d y, (d = lft \/ d = rgt) -> d < n -> l !! d = Some y -> comp z y = false)))).
  { case_decide as Hd.
    - destruct Hg as [[-> Hl]|(-> & Hln & yl & Hyl & Hcl)].
      + apply wp_bind. eapply wp_get; [done|].
        apply wp_bind, wp_get_lt; [lia|]. intros y Hy.
        apply wp_ok. destruct (comp xi y) eqn:Hc.
        * right. split; [auto|]. split; [done|]. exists y. split; [done|]. intros Hswo.
          split; [done|]. intros d y' [->| ->] Hdn Hy'.
          -- specialize (Hl _ Hdn Hy').
             destruct (comp y y') eqn:E; [|done].
             pose proof (swo_trans _ Hswo _ _ _ Hc E). congruence.
          -- assert (y' = y) as -> by congruence. apply (swo_irrefl _ Hswo).
        * left. split; [done|]. split; [done|]. intros y' _ Hy'. congruence.
      + apply wp_bind. eapply wp_get; [done|].
        apply wp_bind, wp_get_lt; [lia|]. intros y Hy.
        apply wp_ok. destruct (comp yl y) eqn:Hc.
        * right. split; [auto|]. split; [done|]. exists y. split; [done|]. intros Hswo.
          split; [by eapply (swo_trans _ Hswo)|].
          intros d y' [->| ->] Hdn Hy'.
          -- assert (y' = yl) as -> by congruence. by apply swo_asym.
          -- assert (y' = y) as -> by congruence. apply (swo_irrefl _ Hswo).
        * right. split; [auto|]. split; [done|]. exists yl. split; [done|]. intros Hswo.
          split; [done|]. intros d y' [->| ->] Hdn Hy'.
          -- assert (y' = yl) as -> by congruence. apply (swo_irrefl _ Hswo).
          -- congruence.
    - apply wp_ok. destruct Hg as [[-> Hl]|(-> & Hln & yl & Hyl & Hcl)].
      + left. split; [done|]. split; [done|]. lia.
      + right. split; [auto|]. split; [done|]. exists yl. split; [done|]. intros Hswo.
        split; [done|]. intros d y' [->| ->] Hdn Hy'; [|lia].
        assert (y' = yl) as -> by congruence. apply (swo_irrefl _ Hswo). }
  clear g Hg. intros m Hm. case_decide as Hmi.
  - destruct Hm as [[-> _]|(Hmc & Hmn & z & Hz & Hord)]; [done|].
    assert (Hil : i < m) by (destruct Hmc; lia).
    apply wp_bind. eapply swap_at_wp; [done|done|].
    set (l1 := <[m:=xi]> (<[i:=z]> l)).
    assert (Hr1 : rperm i n l l1) by (apply swap_rperm; [lia|lia|done|done]).
    assert (Hl1 := rperm_length _ _ _ _ Hr1).
    eapply wp_mono; [apply IH; lia|]. cbv beta.
    intros l' [Hr2 Hheap]. split.
    { eapply rperm_trans; [exact Hr1|]. eapply rperm_weaken; [| |exact Hr2]; lia. }
    intros Hswo k Hk Hex Hgr. destruct (Hord Hswo) as [Hxz Hmax].
    assert (Hlk : forall t, l1 !! t = if decide (t = m) then Some xi else
                    if decide (t = i) then Some z else l !! t).
    { intros t. by apply swap_lookup. }
    apply (Hheap Hswo k); [lia| |].
    + intros p c x y Hkp Hpm Hc Hcn Hx Hy. rewrite Hlk in Hx, Hy.
      rewrite decide_False in Hx by congruence.
      destruct (decide (p = i)) as [Hpi|Hpi].
      * (* p = i *) subst p. injection Hx as <-. case_decide as Hcm.
        -- injection Hy as <-. by apply swo_asym.
        -- rewrite decide_False in Hy by lia. by apply (Hmax c).
      * case_decide as Hcm.
        -- exfalso. lia.
        -- case_decide as Hci.
           ++ subst c. injection Hy as <-. apply (Hgr p m x z); try done; lia.
           ++ apply (Hex p c); try done; congruence.
    + intros p c x y Hkp Hp Hc Hcn Hx Hy. assert (p = i) as -> by lia.
      rewrite Hlk in Hx, Hy. rewrite decide_False, decide_True in Hx by lia.
      injection Hx as <-. rewrite !decide_False in Hy by lia.
      apply (Hex m c z y); try done; lia.
  - apply wp_ok. split; [apply rperm_refl|]. intros Hswo k Hk Hex Hgr.
    destruct Hm as [(_ & Hl & Hr)|(Hmc & _)]; [|destruct Hmc; lia].
    intros p c x y Hkp _ Hc Hcn Hx Hy. destruct (decide (p = i)) as [->|Hpi].
    + assert (x = xi) as -> by congruence.
      destruct Hc as [->| ->]; [by apply Hl|by apply Hr].
    + apply (Hex p c); try done; congruence.
Qed.

(** The root of a heap is a maximum. *)
Lemma heap_root_max l n x : strict_weak_order comp ->
  heap_except l n 0 (fun _ => False) -> n <= length l -> l !! 0 = Some x ->
  forall j y, j < n -> l !! j = Some y -> comp x y = false.
Proof.
  intros Hswo Hh Hn Hx j. induction j as [j IH] using lt_wf_ind. intros y Hj Hy.
  destruct (decide (j = 0)) as [->|Hj0].
  { assert (y = x) as -> by congruence. apply (swo_irrefl _ Hswo). }
  set (p := (j - 1) / 2).
  assert (Hp : j = 2 * p + 1 \/ j = 2 * p + 2).
  { unfold p. pose proof (Nat.div_mod (j - 1) 2). pose proof (Nat.mod_upper_bound (j - 1) 2). lia. }
  destruct (lookup_lt_is_Some_2 l p) as [z Hz]; [lia|].
  apply (swo_ge_trans comp Hswo y z x).
  - apply (Hh p j); try done; lia.
  - apply (IH p); try done; lia.
Qed.

Definition heap_result (l l' : list A) : Prop :=
  Permutation l l' /\ (strict_weak_order comp -> sorted_by comp l').

Lemma heapsort_wp l : wp (heapsort_by mv comp l) (heap_result l).
Proof.
  unfold heapsort_by. set (n := length l). apply wp_bind.
  apply (wp_mono _ (fun a => rperm 0 n l a /\
           (strict_weak_order comp -> heap_except a n 0 (fun _ => False)))).
  { case_decide as Hn.
    - apply (wp_for_down (fun k a => rperm 0 n l a /\
               (strict_weak_order comp -> heap_except a n k (fun _ => False)))).
      + lia.
      + split; [apply rperm_refl|]. intros _ p c x y Hp _ Hc Hcn. exfalso.
        pose proof (Nat.div_mod n 2). pose proof (Nat.mod_upper_bound n 2). lia.
      + intros k a _ Hk [Hr Hh].
        assert (Hla := rperm_length _ _ _ _ Hr). fold n in Hla.
        assert (k < n). { pose proof (Nat.div_lt n 2). lia. }
        eapply wp_mono; [apply max_heapify_wp; lia|]. cbv beta.
        intros a' [Hr' Hh']. split.
        { eapply rperm_trans; [exact Hr|]. eapply rperm_weaken; [| |exact Hr']; lia. }
        intros Hswo. apply (Hh' Hswo k); [lia| |].
        * intros p c x y Hp Hne. apply (Hh Hswo p c x y); [lia|tauto].
        * intros p c x y Hp Hi. lia.
      + intros a H. exact H.
    - apply wp_ok. split; [apply rperm_refl|]. intros _ p c x y. lia. }
  intros a [Hra Hha].
  destruct (decide (n = 0)) as [Hn0|Hn0].
  { rewrite Hn0. cbn [for_down]. apply wp_ok. split; [by destruct Hra|]. intros _.
    assert (a = []) as ->; [|apply sorted_by_nil].
    apply nil_length_inv. by rewrite (rperm_length _ _ _ _ Hra). }
  apply (wp_for_down (fun k a => rperm 0 n l a /\
           (strict_weak_order comp ->
              heap_except a k 0 (fun _ => False) /\ sorted_on comp k n a /\
              (forall i j x y, i < k -> k <= j -> j < n -> a !! i = Some x -> a !! j = Some y ->
                 comp y x = false)))).
  - lia.
  - split; [done|]. intros Hswo. split; [auto|]. split.
    + intros i j x y. lia.
    + intros i j x y. lia.
  - clear a Hra Hha. intros k a Hk1 Hk2 [Hr Hinv].
    assert (Hla := rperm_length _ _ _ _ Hr). fold n in Hla.
    destruct (lookup_lt_is_Some_2 a 0) as [x0 Hx0]; [lia|].
    destruct (lookup_lt_is_Some_2 a k) as [xk Hxk]; [lia|].
    apply wp_bind. eapply swap_at_wp; [done|done|].
    set (a1 := <[k:=x0]> (<[0:=xk]> a)).
    assert (Hr1 : rperm 0 (S k) a a1) by (apply swap_rperm; [lia|lia|done|done]).
    assert (Hl1 := rperm_length _ _ _ _ Hr1).
    assert (Hlk : forall t, a1 !! t = if decide (t = k) then Some x0 else
                    if decide (t = 0) then Some xk else a !! t).
    { intros t. by apply swap_lookup. }
    eapply wp_mono; [apply max_heapify_wp; lia|]. cbv beta.
    intros a2 [Hr2 Hh2]. split.
    { eapply rperm_trans; [exact Hr|].
      eapply rperm_trans; (eapply rperm_weaken; [| |eassumption]); lia. }
    intros Hswo. destruct (Hinv Hswo) as (Hh & Hs & Hle).
    assert (Hout : forall t, k <= t -> a2 !! t = a1 !! t).
    { intros t Ht. apply Hr2. lia. }
    assert (Hmax : forall i x, i < k -> a2 !! i = Some x -> comp x0 x = false).
    { intros i x Hi Hx.
      apply (rperm_forall (fun x => comp x0 x = false) 0 k a1 a2 Hr2) with (i := i); [|lia|done].
      intros j z Hj Hz. rewrite Hlk in Hz.
      rewrite decide_False in Hz by lia.
      case_decide.
      - injection Hz as <-. apply (heap_root_max a (S k) x0 Hswo Hh) with (j := k); try done; lia.
      - apply (heap_root_max a (S k) x0 Hswo Hh) with (j := j); try done; lia. }
    assert (Hbig : forall i j x y, i < k -> S k <= j -> j < n ->
              a2 !! i = Some x -> a2 !! j = Some y -> comp y x = false).
    { intros i j x y Hi Hj Hjn Hx Hy.
      rewrite Hout in Hy by lia. rewrite Hlk in Hy. rewrite !decide_False in Hy by lia.
      apply (rperm_forall (fun x => comp y x = false) 0 k a1 a2 Hr2) with (i := i); [|lia|done].
      intros t z Ht Hz. rewrite Hlk in Hz. rewrite decide_False in Hz by lia.
      case_decide.
      - injection Hz as <-. apply (Hle k j); try done; lia.
      - apply (Hle t j); try done; lia. }
    split.
    + apply (Hh2 Hswo 0); [lia| |].
      * intros p c x y Hp Hne Hc Hcn Hx Hy. rewrite Hlk in Hx, Hy.
        rewrite !decide_False in Hx by lia. rewrite !decide_False in Hy by lia.
        apply (Hh p c); try done; lia.
      * intros p c x y Hp Hi. lia.
    + split.
      * intros i j x y Hi Hij Hj Hx Hy.
        rewrite Hout in Hx, Hy by lia. rewrite Hlk in Hx, Hy.
        rewrite (decide_False (P := j = k)), (decide_False (P := j = 0)) in Hy by lia.
        case_decide.
        -- injection Hx as <-. apply (Hle 0 j); try done; lia.
        -- rewrite decide_False in Hx by lia. apply (Hs i j); try done; lia.
      * intros i j x y Hi Hj Hjn Hx Hy. destruct (decide (j = k)) as [->|Hjk].
        -- rewrite Hout, Hlk, decide_True in Hy by lia. injection Hy as <-. by apply (Hmax i).
        -- apply (Hbig i j); try done; lia.
  - clear a Hra Hha. intros a [Hr Hinv]. split; [by destruct Hr|].
    intros Hswo. destruct (Hinv Hswo) as (_ & Hs & Hle).
    assert (Hla := rperm_length _ _ _ _ Hr). fold n in Hla.
    intros i j x y Hij Hx Hy.
    assert (j < n) by (rewrite <- Hla; by eapply lookup_lt_Some).
    destruct (decide (i = 0)) as [->|].
    + apply (Hle 0 j); try done; lia.
    + apply (Hs i j); try done; lia.
Qed.
End proofs.
