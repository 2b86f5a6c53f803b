(** Vcq (cyclic.hpp:163-349) is a bounded FIFO. *)
From Verif Require Import Base.Cpp Base.Mem Model.Cyclic Spec.QueueSpec Proofs.MemLemmas.
Set Default Proof Using "Type".

Section proofs.
Context {A : Type} (E : ety A) (n : nat).
Implicit Types (q : vcq) (m : mem A) (xs : list A) (cs : list (cell A)).

Lemma slot_lt r i : r < n -> i <= n -> slot n r i < n.
Proof. intros. unfold slot. case_decide; lia. Qed.

Lemma slot_inj r i j : r < n -> i < n -> j < n -> slot n r i = slot n r j -> i = j.
Proof. intros. unfold slot in *. repeat case_decide; lia. Qed.

Lemma slot_surj r j : r < n -> j < n -> exists i, i < n /\ slot n r i = j.
Proof.
  intros Hr Hj. exists (if decide (r <= j) then j - r else j + n - r). unfold slot.
  repeat case_decide; lia.
Qed.

Lemma slot_succ r i : r < n -> i < n -> slot n (slot n r 1) i = slot n r (S i).
Proof. intros. unfold slot. repeat case_decide; lia. Qed.

Lemma slot_full r : r < n -> slot n r n = r.
Proof. intros. unfold slot. case_decide; lia. Qed.

Lemma slot_mod r i : r < n -> i <= n -> slot n r i = (r + i) mod n.
Proof.
  intros Hr Hi. unfold slot. case_decide.
  - by rewrite Nat.mod_small by lia.
  - replace (r + i) with ((r + i - n) + 1 * n) at 2 by lia. rewrite Nat.mod_add by lia.
    rewrite Nat.mod_small; lia.
Qed.

(** Pointer increment with wrap-around. *)
Lemma bump r : r < n -> r + 1 - n * (if decide (r + 1 = n) then 1 else 0) = slot n r 1.
Proof. intros. unfold slot. repeat case_decide; lia. Qed.

(** Cells of the two copies of slot j. *)
Lemma two_lookup cs j c1 c2 k : length cs = 2 * n -> j < n -> k < n ->
  <[j + n := c2]> (<[j := c1]> cs) !! k = (if decide (k = j) then Some c1 else cs !! k) /\
  <[j + n := c2]> (<[j := c1]> cs) !! (n + k) = (if decide (k = j) then Some c2 else cs !! (n + k)).
Proof.
  intros Hl Hj Hk. split; case_decide; subst.
  - rewrite list_lookup_insert_ne by lia. apply list_lookup_insert. lia.
  - rewrite !list_lookup_insert_ne by lia. done.
  - rewrite (Nat.add_comm n j). apply list_lookup_insert. rewrite insert_length. lia.
  - rewrite !list_lookup_insert_ne by lia. done.
Qed.

(** The lower copy of every element is right; the upper copy is right where it is read. *)
Record cells_rep cs (r : nat) xs : Prop := {
  cr_len : length cs = 2 * n;
  cr_read : r < n;
  cr_size : length xs <= n;
  cr_low : forall i x, xs !! i = Some x -> cs !! slot n r i = Some (Live x);
  cr_up : forall i x, xs !! i = Some x ->
    exists y, cs !! (n + slot n r i) = Some (Live y) /\ (n <= r + i -> y = x);
  cr_vac : forall i, length xs <= i < n -> exists c1 c2,
    cs !! slot n r i = Some c1 /\ vacant E c1 /\ cs !! (n + slot n r i) = Some c2 /\ vacant E c2
}.

Definition vcq_rep m q xs : Prop := exists cs,
  blk m (q_blk q) cs /\ q_size q = length xs /\ q_write q = slot n (q_read q) (length xs) /\
  cells_rep cs (q_read q) xs.

(** Removing the head / appending at the cell level. *)
Lemma cells_append cs r xs a : cells_rep cs r xs -> length xs < n ->
  cells_rep (<[slot n r (length xs) + n := Live a]> (<[slot n r (length xs) := Live a]> cs)) r (xs ++ [a]).
Proof.
  intros [Hl Hr Hs Hlow Hup Hvac] Hlt. set (j := slot n r (length xs)).
  assert (Hj : j < n) by (apply slot_lt; lia).
  assert (Hcell : forall k, k < n -> k <> length xs -> slot n r k <> j).
  { intros k Hk Hne Heq. apply Hne. by apply (slot_inj r). }
  split.
  - rewrite !insert_length. done.
  - done.
  - rewrite app_length. simpl. lia.
  - intros i x Hi. assert (i < n).
    { apply lookup_lt_Some in Hi. rewrite app_length in Hi. simpl in Hi. lia. }
    rewrite (proj1 (two_lookup cs j (Live a) (Live a) (slot n r i) Hl Hj ltac:(apply slot_lt; lia))).
    destruct (decide (i = length xs)) as [->|Hne].
    + rewrite lookup_app_r, Nat.sub_diag in Hi by lia. injection Hi as ->. by rewrite decide_True by done.
    + rewrite decide_False by (by apply Hcell). apply Hlow.
      apply lookup_app_Some in Hi as [?|[? Hi]]; [done|].
      apply list_lookup_singleton_Some in Hi as [? _]. lia.
  - intros i x Hi. assert (i < n).
    { apply lookup_lt_Some in Hi. rewrite app_length in Hi. simpl in Hi. lia. }
    rewrite (proj2 (two_lookup cs j (Live a) (Live a) (slot n r i) Hl Hj ltac:(apply slot_lt; lia))).
    destruct (decide (i = length xs)) as [->|Hne].
    + rewrite lookup_app_r, Nat.sub_diag in Hi by lia. injection Hi as ->.
      rewrite decide_True by done. eauto.
    + rewrite decide_False by (by apply Hcell). apply Hup.
      apply lookup_app_Some in Hi as [?|[? Hi]]; [done|].
      apply list_lookup_singleton_Some in Hi as [? _]. lia.
  - rewrite app_length. simpl. intros i Hi.
    destruct (Hvac i) as (c1 & c2 & H1 & H2 & H3 & H4); [lia|]. exists c1, c2.
    destruct (two_lookup cs j (Live a) (Live a) (slot n r i) Hl Hj ltac:(apply slot_lt; lia)) as [E1 E2].
    rewrite E1, E2. rewrite !decide_False by (apply Hcell; lia). done.
Qed.

Lemma cells_remove cs r x xs c1 c2 : cells_rep cs r (x :: xs) -> vacant E c1 -> vacant E c2 ->
  cells_rep (<[r + n := c2]> (<[r := c1]> cs)) (slot n r 1) xs.
Proof.
  intros [Hl Hr Hs Hlow Hup Hvac] Hv1 Hv2. simpl in Hs.
  assert (Hr0 : slot n r 0 = r) by (unfold slot; rewrite Nat.add_0_r; by rewrite decide_True).
  assert (Hcell : forall k, S k < n -> slot n (slot n r 1) k <> r).
  { intros k Hk Heq. rewrite slot_succ in Heq by lia. rewrite <- Hr0 in Heq at 2.
    apply slot_inj in Heq; lia. }
  split.
  - rewrite !insert_length. done.
  - apply slot_lt; lia.
  - lia.
  - intros i y Hi.
    assert (S i < S (length xs)) by (apply lookup_lt_Some in Hi; lia).
    destruct (decide (S i < n)).
    + rewrite (proj1 (two_lookup cs r c1 c2 (slot n (slot n r 1) i) Hl Hr ltac:(apply slot_lt; [apply slot_lt; lia|lia]))).
      rewrite decide_False by (by apply Hcell). rewrite slot_succ by lia. by apply Hlow.
    + lia.
  - intros i y Hi. assert (S i < S (length xs)) by (apply lookup_lt_Some in Hi; lia).
    rewrite (proj2 (two_lookup cs r c1 c2 (slot n (slot n r 1) i) Hl Hr ltac:(apply slot_lt; [apply slot_lt; lia|lia]))).
    rewrite decide_False by (apply Hcell; lia). rewrite slot_succ by lia.
    destruct (Hup (S i) y Hi) as (z & Hz & Heq). exists z. split; [done|].
    intros Hge. apply Heq. unfold slot in Hge. case_decide; lia.
  - intros i Hi.
    destruct (two_lookup cs r c1 c2 (slot n (slot n r 1) i) Hl Hr) as [E1 E2].
    { apply slot_lt; [apply slot_lt; lia|lia]. }
    rewrite E1, E2. destruct (decide (S i < n)).
    + rewrite !decide_False by (by apply Hcell). rewrite slot_succ by lia. apply Hvac. simpl. lia.
    + rewrite slot_succ by lia. replace (S i) with n by lia. rewrite slot_full by lia.
      rewrite !decide_True by done. eauto 10.
Qed.

Lemma vcq_rep_get m q xs i x : vcq_rep m q xs -> xs !! i = Some x -> vcq_get q i m = Ok x.
Proof.
  intros (cs & Hb & Hs & Hw & [Hl Hr Hsz Hlow Hup Hvac]) Hi.
  assert (i < length xs) by (by eapply lookup_lt_Some).
  unfold vcq_get. eapply read_ok; [done|].
  destruct (decide (q_read q + i < n)) as [Hlt|Hge].
  - assert (E1 := Hlow _ _ Hi). unfold slot in E1. by rewrite decide_True in E1 by done.
  - destruct (Hup _ _ Hi) as (y & Hy & Heq). rewrite Heq in Hy by lia.
    unfold slot in Hy. rewrite decide_False in Hy by done.
    by replace (n + (q_read q + i - n)) with (q_read q + i) in Hy by lia.
Qed.

Lemma vcq_push_rep m q xs a : 0 < n -> vcq_rep m q xs -> exists q' cs',
  vcq_push E n q a m = Ok (q', upd m (q_blk q) cs') /\ q_blk q' = q_blk q /\
  let xs' := if decide (length xs = n) then tail xs ++ [a] else xs ++ [a] in
  vcq_rep (upd m (q_blk q) cs') q' xs' /\
  q_read q' = (q_read q + (length xs + 1 - length xs')) mod n.
Proof.
  intros Hn (cs & Hb & Hs & Hw & Hrep).
  assert (Hl := cr_len _ _ _ Hrep). assert (Hr := cr_read _ _ _ Hrep).
  assert (Hsz := cr_size _ _ _ Hrep).
  unfold vcq_push. rewrite Hs. set (b := q_blk q) in *. set (r := q_read q) in *.
  destruct (decide (length xs = n)) as [Hfull|Hnf].
  - destruct xs as [|x0 xs]; [simpl in Hfull; lia|].
    assert (Hwr : q_write q = r) by (rewrite Hw, Hfull; by apply slot_full).
    rewrite Hwr.
    assert (Hr0 : slot n r 0 = r) by (unfold slot; rewrite Nat.add_0_r; by rewrite decide_True).
    assert (H0 := cr_low _ _ _ Hrep 0 x0 eq_refl). rewrite Hr0 in H0.
    destruct (cr_up _ _ _ Hrep 0 x0 eq_refl) as (y0 & Hy0 & _). rewrite Hr0 in Hy0.
    rewrite (Nat.add_comm n r) in Hy0.
    erewrite (destroy_live E m b cs r x0) by done. cbn [bind].
    erewrite (destroy_live E _ b _ (r + n) y0).
    2:{ by eapply blk_upd. }
    2:{ rewrite list_lookup_insert_ne by lia. done. }
    cbn [bind]. rewrite upd_upd.
    set (cs1 := <[r + n := dead E (Live y0)]> (<[r := dead E (Live x0)]> cs)).
    assert (Hrep1 : cells_rep cs1 (slot n r 1) xs).
    { eapply cells_remove; [done|apply dead_vacant|apply dead_vacant]. }
    assert (Hlen : length xs < n) by (simpl in Hfull; lia).
    assert (Hw1 : slot n (slot n r 1) (length xs) = r).
    { rewrite slot_succ by lia. simpl in Hfull. rewrite Hfull. by apply slot_full. }
    assert (Hrep2 := cells_append _ _ _ a Hrep1 Hlen). rewrite Hw1 in Hrep2.
    destruct (cr_vac _ _ _ Hrep1 (length xs)) as (c1 & c2 & Hc1 & Hv1 & Hc2 & Hv2); [lia|].
    rewrite Hw1 in Hc1, Hc2. rewrite (Nat.add_comm n r) in Hc2.
    erewrite (construct_vacant E _ b cs1 r c1); [|by eapply blk_upd|done|done].
    cbn [bind]. rewrite upd_upd.
    erewrite (construct_vacant E _ b _ (r + n) c2).
    2:{ by eapply blk_upd. }
    2:{ by rewrite list_lookup_insert_ne by lia. }
    2:{ done. }
    cbn [bind]. rewrite upd_upd. rewrite decide_False by lia.
    rewrite !bump by done.
    eexists _, _. split; [done|]. split; [done|]. cbn [tail]. split.
    + eexists. cbn [q_blk q_size q_read q_write]. split; [by eapply blk_upd|].
      split; [rewrite app_length; simpl; lia|]. split; [|exact Hrep2].
      rewrite app_length. simpl. replace (length xs + 1) with n by (simpl in Hfull; lia).
      rewrite slot_full; [done|apply slot_lt; lia].
    + cbn [q_read]. rewrite slot_mod by lia. f_equal. rewrite app_length. simpl. lia.
  - assert (Hlen : length xs < n) by lia. cbn [bind].
    destruct (cr_vac _ _ _ Hrep (length xs)) as (c1 & c2 & Hc1 & Hv1 & Hc2 & Hv2); [lia|].
    assert (Hrep2 := cells_append _ _ _ a Hrep Hlen).
    fold r in Hw. rewrite <- Hw in *. rewrite (Nat.add_comm n (q_write q)) in Hc2.
    erewrite (construct_vacant E _ b cs (q_write q) c1); [|done|done|done].
    cbn [bind].
    erewrite (construct_vacant E _ b _ (q_write q + n) c2).
    2:{ by eapply blk_upd. }
    2:{ by rewrite list_lookup_insert_ne by lia. }
    2:{ done. }
    cbn [bind]. rewrite upd_upd. rewrite decide_True by lia.
    assert (Hwn : q_write q < n) by (rewrite Hw; apply slot_lt; lia).
    rewrite bump by done.
    eexists _, _. split; [done|]. split; [done|]. split.
    + eexists. cbn [q_blk q_size q_read q_write]. split; [by eapply blk_upd|].
      split; [rewrite app_length; simpl; lia|]. split; [|exact Hrep2].
      rewrite app_length. simpl. rewrite Hw. unfold slot. repeat case_decide; lia.
    + cbn [q_read]. rewrite app_length. simpl. rewrite Nat.sub_diag, Nat.add_0_r.
      by rewrite Nat.mod_small.
Qed.

Lemma vcq_pop_rep m q x xs : vcq_rep m q (x :: xs) -> exists q' cs',
  vcq_pop E n q m = Ok (x, q', upd m (q_blk q) cs') /\ q_blk q' = q_blk q /\
  vcq_rep (upd m (q_blk q) cs') q' xs /\ q_read q' = (q_read q + 1) mod n.
Proof.
  intros (cs & Hb & Hs & Hw & Hrep).
  assert (Hl := cr_len _ _ _ Hrep). assert (Hr := cr_read _ _ _ Hrep).
  assert (Hsz := cr_size _ _ _ Hrep).
  unfold vcq_pop. set (b := q_blk q) in *. set (r := q_read q) in *.
  assert (Hr0 : slot n r 0 = r) by (unfold slot; rewrite Nat.add_0_r; by rewrite decide_True).
  assert (H0 := cr_low _ _ _ Hrep 0 x eq_refl). rewrite Hr0 in H0.
  destruct (cr_up _ _ _ Hrep 0 x eq_refl) as (y0 & Hy0 & _). rewrite Hr0 in Hy0.
  rewrite (Nat.add_comm n r) in Hy0.
  erewrite (move_out_live E m b cs r x) by done. cbn [bind].
  erewrite (destroy_live E _ b _ r).
  2:{ by eapply blk_upd. }
  2:{ apply list_lookup_insert. lia. }
  cbn [bind]. rewrite upd_upd.
  erewrite (destroy_live E _ b _ (r + n) y0).
  2:{ by eapply blk_upd. }
  2:{ rewrite !list_lookup_insert_ne by lia. done. }
  cbn [bind]. rewrite upd_upd, list_insert_insert.
  rewrite decide_False by (rewrite Hs; simpl; lia).
  rewrite bump by done.
  assert (Hrep1 := cells_remove cs r x xs _ _ Hrep
     (dead_vacant E (Live (mvd E x))) (dead_vacant E (Live y0))).
  eexists _, _. split; [done|]. split; [done|]. split.
  - eexists. cbn [q_blk q_size q_read q_write]. split; [by eapply blk_upd|].
    split; [rewrite Hs; simpl; lia|]. split; [|exact Hrep1].
    rewrite Hw. simpl. fold r. rewrite slot_succ; [done|done|]. simpl in Hsz. lia.
  - cbn [q_read]. apply slot_mod; lia.
Qed.

Lemma bounded_queue_len ops : forall xs outs xs', length xs <= n -> 0 < n ->
  bounded_queue n xs ops = Some (outs, xs') ->
  length xs' <= n /\ length xs' + length outs <= length xs + pushes ops.
Proof.
  induction ops as [|[a|] ops IH]; intros xs outs xs' Hl Hn; cbn [bounded_queue].
  - intros [= <- <-]. simpl. lia.
  - intros H. case_decide as Hd.
    + apply IH in H; [|rewrite app_length; destruct xs; simpl in *; lia|done].
      rewrite app_length in H. unfold pushes in *. simpl. destruct xs; simpl in *; lia.
    + apply IH in H; [|rewrite app_length; simpl in *; lia|done].
      rewrite app_length in H. unfold pushes in *. simpl in *. lia.
  - destruct xs as [|x xs]; [done|].
    destruct (bounded_queue n xs ops) as [[o f]|] eqn:Hb; [|done]. intros [= <- <-].
    apply IH in Hb; [|simpl in *; lia|done]. unfold pushes in *. simpl in *. lia.
Qed.

Lemma vcq_run_rep ops : 0 < n -> forall m q xs outs xs', vcq_rep m q xs ->
  bounded_queue n xs ops = Some (outs, xs') -> exists q' cs',
  vcq_run E n ops q m = Ok (outs, q', upd m (q_blk q) cs') /\ q_blk q' = q_blk q /\
  vcq_rep (upd m (q_blk q) cs') q' xs' /\
  q_read q' = (q_read q + (length xs + pushes ops - length xs')) mod n.
Proof.
  intros Hn. induction ops as [|[a|] ops IH]; intros m q xs outs xs' Hr; cbn [bounded_queue vcq_run].
  - intros [= <- <-]. destruct Hr as (cs & Hb & Hs & Hw & Hc). exists q, cs.
    rewrite upd_same by done. split; [done|]. split; [done|]. split.
    { exists cs. done. }
    simpl. rewrite Nat.add_0_r, Nat.sub_diag, Nat.add_0_r.
    rewrite Nat.mod_small; [done|]. apply Hc.
  - intros Hbq. assert (Hsz : length xs <= n) by (destruct Hr as (cs & _ & _ & _ & Hc); apply Hc).
    destruct (vcq_push_rep m q xs a Hn Hr) as (q1 & cs1 & E1 & Hb1 & Hr1 & Hrd1).
    rewrite E1. cbn [bind].
    destruct (IH _ _ _ _ _ Hr1 Hbq) as (q2 & cs2 & E2 & Hb2 & Hr2 & Hrd2).
    rewrite E2, Hb1, upd_upd. eexists _, _. split; [done|]. split; [congruence|].
    rewrite Hb1, upd_upd in Hr2. split; [done|].
    rewrite Hrd2, Hrd1. rewrite Nat.add_mod_idemp_l by lia. f_equal.
    assert (Hlen := bounded_queue_len ops _ _ _ ltac:(destruct Hr1 as (? & _ & _ & _ & Hc); apply Hc) Hn Hbq).
    set (xs1 := if decide (length xs = n) then tail xs ++ [a] else xs ++ [a]) in *.
    assert (length xs1 <= length xs + 1).
    { unfold xs1. case_decide; rewrite app_length; [destruct xs|]; simpl; lia. }
    unfold pushes in *. simpl. lia.
  - destruct xs as [|x xs]; [done|].
    destruct (bounded_queue n xs ops) as [[o f]|] eqn:Hbq; [|done]. intros [= <- <-].
    destruct (vcq_pop_rep m q x xs Hr) as (q1 & cs1 & E1 & Hb1 & Hr1 & Hrd1).
    rewrite E1. cbn [bind].
    destruct (IH _ _ _ _ _ Hr1 Hbq) as (q2 & cs2 & E2 & Hb2 & Hr2 & Hrd2).
    rewrite E2. cbn [bind]. rewrite Hb1, upd_upd in *. eexists _, _. split; [done|].
    split; [congruence|]. split; [done|].
    rewrite Hrd2, Hrd1. rewrite Nat.add_mod_idemp_l by lia. f_equal.
    assert (Hlen := bounded_queue_len ops _ _ _ ltac:(destruct Hr1 as (? & _ & _ & _ & Hc); apply Hc) Hn Hbq).
    unfold pushes in *. simpl. lia.
Qed.

(** Popping an empty queue of class-type elements touches a dead object. *)
Lemma vcq_new_rep m : 0 < n -> exists q m', vcq_new n m = (q, m') /\ q_blk q = length (blocks m) /\
  (forall b cs, blk m b cs -> blk m' b cs) /\ leaks m' = leaks m /\ q_read q = 0 /\
  vcq_rep m' q [].
Proof.
  intros Hn. unfold vcq_new. destruct (alloc m (2 * n)) as [b m1] eqn:Ea.
  assert (Hb1 := alloc_blk m (2 * n) _ _ Ea).
  eexists _, _. split; [done|]. split; [by injection Ea as <- <-|].
  split; [intros b' cs Hb'; by apply (alloc_old m (2 * n) b m1)|].
  split; [by injection Ea as <- <-|]. split; [done|].
  exists (replicate (2 * n) Raw). cbn [q_blk q_size q_read q_write].
  split; [done|]. split; [done|]. split; [unfold slot; simpl; by case_decide|].
  split; [by rewrite replicate_length|done|simpl; lia|done|done|].
  intros i Hi. exists Raw, Raw.
  assert (slot n 0 i < n) by (apply slot_lt; lia).
  rewrite !lookup_replicate_2 by lia. split_and!; try done; by left.
Qed.

(** Destruction. *)
Lemma vcq_destroy_loop_rep m q xs : vcq_rep m q xs -> exists cs',
  vcq_destroy_loop E n q m = Ok (upd m (q_blk q) cs') /\ length cs' = 2 * n /\
  Forall (vacant E) cs'.
Proof.
  intros (cs & Hb & Hs & Hw & Hrep). assert (Hr := cr_read _ _ _ Hrep).
  assert (Hl := cr_len _ _ _ Hrep). assert (Hsz := cr_size _ _ _ Hrep).
  unfold vcq_destroy_loop. set (b := q_blk q) in *. set (r := q_read q) in *.
  assert (Hloop : wp (for_up (q_size q) 0 (fun i m =>
      let* m0 := destroy E m b (slot n r i) in destroy E m0 b (n + slot n r i)) m)
      (fun m' => exists cs', m' = upd m b cs' /\ length cs' = 2 * n /\ Forall (vacant E) cs')).
  { apply (wp_for_up (fun k m' => exists cs', m' = upd m b cs' /\ length cs' = 2 * n /\
      (forall i, k <= i -> i < n -> cs' !! slot n r i = cs !! slot n r i /\
                             cs' !! (n + slot n r i) = cs !! (n + slot n r i)) /\
      (forall i, i < k -> exists c1 c2, cs' !! slot n r i = Some c1 /\ vacant E c1 /\
                             cs' !! (n + slot n r i) = Some c2 /\ vacant E c2))).
    - exists cs. rewrite upd_same by done. split_and!; try done. intros i Hi. lia.
    - intros k m' _ Hk (cs' & -> & Hl' & Hge & Hlt). simpl in Hk.
      destruct (lookup_lt_is_Some_2 xs k) as [x Hx]; [lia|].
      assert (Hj : slot n r k < n) by (apply slot_lt; lia).
      destruct (Hge k) as [G1 G2]; [lia|lia|].
      rewrite (cr_low _ _ _ Hrep k x Hx) in G1.
      destruct (cr_up _ _ _ Hrep k x Hx) as (y & Hy & _). rewrite Hy in G2.
      apply wp_bind. eapply wp_of_eq.
      { eapply (destroy_live E _ b cs'); [by eapply blk_upd|done]. }
      rewrite upd_upd. eapply wp_of_eq.
      { eapply (destroy_live E _ b _ _ y); [by eapply blk_upd|].
        by rewrite list_lookup_insert_ne by lia. }
      cbv beta. rewrite upd_upd. eexists. split; [done|].
      split; [by rewrite !insert_length|].
      rewrite (Nat.add_comm n (slot n r k)).
      split; intros i Hi.
      + intros Hin.
        destruct (two_lookup cs' (slot n r k) (dead E (Live x)) (dead E (Live y)) (slot n r i) Hl' Hj)
          as [E1 E2]; [apply slot_lt; lia|].
        rewrite E1, E2. rewrite !decide_False by (intros Heq; apply slot_inj in Heq; lia).
        apply Hge; lia.
      + destruct (two_lookup cs' (slot n r k) (dead E (Live x)) (dead E (Live y)) (slot n r i) Hl' Hj)
          as [E1 E2]; [apply slot_lt; lia|].
        rewrite E1, E2. destruct (decide (i = k)) as [->|Hne].
        * rewrite !decide_True by done. eexists _, _. split; [done|]. split; [apply dead_vacant|].
          split; [done|apply dead_vacant].
        * rewrite !decide_False by (intros Heq; apply slot_inj in Heq; lia). apply Hlt. lia.
    - intros m' (cs' & -> & Hl' & Hge & Hlt). exists cs'. split; [done|]. split; [done|].
      assert (Hall : forall i, i < n -> exists c1 c2, cs' !! slot n r i = Some c1 /\ vacant E c1 /\
                             cs' !! (n + slot n r i) = Some c2 /\ vacant E c2).
      { intros i Hi. destruct (decide (i < q_size q)) as [?|Hge']; [by apply Hlt|].
        destruct (Hge i) as [-> ->]; [simpl; lia|done|]. apply (cr_vac _ _ _ Hrep). lia. }
      apply Forall_lookup. intros j c Hj.
      assert (Hjl : j < 2 * n) by (rewrite <- Hl'; by eapply lookup_lt_Some).
      destruct (decide (j < n)) as [Hjn|Hjn].
      + destruct (slot_surj r j Hr Hjn) as (i & Hi & Heq).
        destruct (Hall i Hi) as (c1 & c2 & H1 & H2 & _). rewrite Heq in H1. congruence.
      + destruct (slot_surj r (j - n) Hr ltac:(lia)) as (i & Hi & Heq).
        destruct (Hall i Hi) as (c1 & c2 & _ & _ & H1 & H2). rewrite Heq in H1.
        replace (n + (j - n)) with j in H1 by lia. congruence. }
  destruct Hloop as (m' & E1 & cs' & -> & H1 & H2). exists cs'. done.
Qed.

Lemma vacant_free cs : Forall (vacant E) cs -> triv E = true \/ Forall (fun c => c = Raw) cs.
Proof.
  intros H. destruct (triv E) eqn:Ht; [by left|right].
  eapply Forall_impl; [exact H|]. intros c [?|?]; [done|congruence].
Qed.

Lemma vcq_destroy_rep m q xs : vcq_rep m q xs ->
  vcq_destroy E n q m = Ok (Mem (<[q_blk q := None]> (blocks m)) (leaks m)).
Proof.
  intros Hrep. destruct (vcq_destroy_loop_rep m q xs Hrep) as (cs' & E1 & Hl & Hv).
  destruct Hrep as (cs & Hb & _). unfold vcq_destroy. rewrite E1. cbn [bind].
  erewrite free_ok.
  - unfold upd; cbn [blocks leaks]. by rewrite list_insert_insert.
  - by eapply blk_upd.
  - by apply vacant_free.
Qed.

(** Copying when the head of the source is at offset 0 or the source is empty. *)
Lemma vcq_copy_loop_rep m b o xs old : vcq_rep m o xs -> q_blk o <> b ->
  (q_read o = 0 \/ xs = []) ->
  blk m b old -> length old = 2 * n -> Forall (vacant E) old -> exists cs',
  vcq_copy_loop E n b o m = Ok (upd m b cs') /\ cells_rep cs' (q_read o) xs.
Proof.
  intros (cs & Hb & Hs & Hw & Hrep) Hne Hoff Hbb Hlo Hvo.
  assert (Hr := cr_read _ _ _ Hrep). assert (Hsz := cr_size _ _ _ Hrep).
  set (r := q_read o) in *.
  unfold vcq_copy_loop.
  assert (Hloop : wp (for_up (q_size o) 0 (fun i m =>
      let j := slot n (q_read o) i in
      let* x := read m (q_blk o) i in
      let* m := construct E m b j x in
      let* y := read m (q_blk o) i in
      construct E m b (n + j) y) m)
     (fun m' => exists cs', m' = upd m b cs' /\ cells_rep cs' r xs)).
  { apply (wp_for_up (fun k m' => exists cs', m' = upd m b cs' /\ cells_rep cs' r (take k xs))).
    - exists old. rewrite upd_same by done. split; [done|]. rewrite take_0. split; try done.
      + simpl. lia.
      + intros i Hi. assert (slot n r i < n) by (apply slot_lt; lia).
        destruct (lookup_lt_is_Some_2 old (slot n r i)) as [c1 Hc1]; [lia|].
        destruct (lookup_lt_is_Some_2 old (n + slot n r i)) as [c2 Hc2]; [lia|].
        rewrite Forall_lookup in Hvo. exists c1, c2. split_and!; eauto.
    - intros k m' _ Hk (cs' & -> & Hrep'). simpl in Hk.
      destruct (lookup_lt_is_Some_2 xs k) as [x Hx]; [lia|].
      destruct Hoff as [Hoff|Hoff]; [|by rewrite Hoff in Hx].
      assert (Htk : length (take k xs) = k) by (rewrite take_length; lia).
      assert (Hsk : slot n r k = k) by (rewrite Hoff; unfold slot; rewrite decide_True by lia; done).
      assert (Hck : cs !! k = Some (Live x)).
      { rewrite <- Hsk at 1. by apply (cr_low _ _ _ Hrep). }
      fold r. cbv zeta. rewrite Hsk.
      destruct (cr_vac _ _ _ Hrep' k) as (c1 & c2 & Hc1 & Hv1 & Hc2 & Hv2); [lia|].
      rewrite Hsk in Hc1, Hc2.
      apply wp_bind. eapply wp_of_eq.
      { eapply read_ok; [|exact Hck]. by apply blk_upd_ne. }
      apply wp_bind. eapply wp_of_eq.
      { eapply (construct_vacant E _ b cs' k c1); [by eapply blk_upd|done|done]. }
      rewrite upd_upd.
      apply wp_bind. eapply wp_of_eq.
      { eapply read_ok; [|exact Hck]. by apply blk_upd_ne. }
      eapply wp_of_eq.
      { eapply (construct_vacant E _ b _ (n + k) c2); [by eapply blk_upd| |done].
        by rewrite list_lookup_insert_ne by lia. }
      cbv beta. rewrite upd_upd. eexists. split; [done|].
      rewrite (take_S_r _ _ _ Hx). 
      assert (Hrep2 := cells_append _ _ _ x Hrep'). rewrite Htk, Hsk in Hrep2.
      rewrite (Nat.add_comm n k). apply Hrep2. lia.
    - intros m' (cs' & -> & Hrep'). exists cs'. split; [done|].
      rewrite take_ge in Hrep' by lia. done. }
  destruct Hloop as (m' & E1 & cs' & -> & H1). exists cs'. done.
Qed.

Lemma vcq_rep_frame m q xs b cs : vcq_rep m q xs -> q_blk q <> b -> vcq_rep (upd m b cs) q xs.
Proof.
  intros (cs0 & Hb & H) Hne. exists cs0. split; [|done]. by apply blk_upd_ne.
Qed.

Lemma vcq_copy_rep m o xs : vcq_rep m o xs -> (q_read o = 0 \/ xs = []) -> exists q' m',
  vcq_copy E n o m = Ok (q', m') /\ q_blk q' <> q_blk o /\ leaks m' = leaks m /\
  q_read q' = q_read o /\
  vcq_rep m' q' xs /\ vcq_rep m' o xs.
Proof.
  intros Hrep Hoff. unfold vcq_copy. destruct (alloc m (2 * n)) as [b m1] eqn:Ea.
  assert (Hb1 := alloc_blk m (2 * n) _ _ Ea).
  assert (Hrep1 : vcq_rep m1 o xs /\ q_blk o <> b).
  { destruct Hrep as (cs & Hb & H). destruct (alloc_old m _ b m1 _ _ Ea Hb) as [Hb1o Hne].
    split; [|done]. exists cs. done. }
  destruct Hrep1 as [Hrep1 Hne].
  destruct (vcq_copy_loop_rep m1 b o xs _ Hrep1 Hne Hoff Hb1) as (cs' & E1 & Hc).
  { by rewrite replicate_length. }
  { apply forall_replicate_raw. }
  rewrite E1. cbn [bind]. eexists _, _. split; [done|]. split; [by apply not_eq_sym|].
  split; [by injection Ea as <- <-|]. split; [done|]. split.
  - destruct Hrep1 as (cs & Hb & Hs & Hw & _). exists cs'. cbn [q_blk q_size q_read q_write].
    split; [by eapply blk_upd|]. done.
  - by apply vcq_rep_frame.
Qed.

Lemma vcq_copy_assign_rep m q o ys xs : vcq_rep m q ys -> vcq_rep m o xs -> q_blk q <> q_blk o ->
  (q_read o = 0 \/ xs = []) -> exists q' cs',
  vcq_copy_assign E n q o m = Ok (q', upd m (q_blk q) cs') /\ q_blk q' = q_blk q /\
  q_read q' = q_read o /\
  vcq_rep (upd m (q_blk q) cs') q' xs /\ vcq_rep (upd m (q_blk q) cs') o xs.
Proof.
  intros Hq Ho Hne Hoff. unfold vcq_copy_assign.
  destruct (vcq_destroy_loop_rep m q ys Hq) as (cs1 & E1 & Hl1 & Hv1).
  rewrite E1. cbn [bind].
  assert (Hb1 : blk (upd m (q_blk q) cs1) (q_blk q) cs1).
  { destruct Hq as (cs & Hb & _). by eapply blk_upd. }
  destruct (vcq_copy_loop_rep (upd m (q_blk q) cs1) (q_blk q) o xs cs1) as (cs' & E2 & Hc); try done.
  { by apply vcq_rep_frame; [|apply not_eq_sym]. }
  rewrite E2. cbn [bind]. rewrite upd_upd. eexists _, _. split; [done|]. split; [done|].
  split; [done|]. split.
  - destruct Ho as (cs & Hb & Hs & Hw & _). exists cs'. cbn [q_blk q_size q_read q_write].
    split; [|done]. destruct Hq as (cs2 & Hb2 & _). by eapply blk_upd.
  - by apply vcq_rep_frame; [|apply not_eq_sym].
Qed.

(** Iteration over a non-empty queue. *)
Lemma vcq_iter_rep m q xs : vcq_rep m q xs -> xs <> [] -> vcq_iter n q m = Ok xs.
Proof.
  intros Hrep Hne.
  assert (Hend : vcq_end n q = q_read q + length xs).
  { destruct Hrep as (cs & _ & _ & Hw & [_ Hr Hsz _ _ _]).
    destruct xs as [|x xs]; [done|]. unfold vcq_end. rewrite Hw. unfold slot.
    simpl in *. repeat case_decide; lia. }
  unfold vcq_iter, read_range, vcq_begin. rewrite Hend.
  replace (q_read q + length xs - q_read q) with (length xs) by lia. apply wp_eq.
  apply (wp_for_up (fun i acc => acc = take (i - q_read q) xs)).
  - by rewrite Nat.sub_diag, take_0.
  - intros k acc Hk1 Hk2 ->.
    destruct (lookup_lt_is_Some_2 xs (k - q_read q)) as [x Hx]; [lia|].
    apply wp_bind. eapply wp_of_eq.
    { assert (Hg := vcq_rep_get _ _ _ _ _ Hrep Hx). unfold vcq_get in Hg.
      replace (q_read q + (k - q_read q)) with k in Hg by lia. exact Hg. }
    apply wp_ok. replace (S k - q_read q) with (S (k - q_read q)) by lia.
    by rewrite (take_S_r _ _ x).
  - intros acc ->. replace (q_read q + length xs - q_read q) with (length xs) by lia.
    by rewrite take_ge by lia.
Qed.

(** Writing an element whose lower copy is the one operator[] refers to. *)
Lemma vcq_set_rep m q xs i x : vcq_rep m q xs -> i < length xs -> q_read q + i < n ->
  exists cs', vcq_set E q i x m = Ok (upd m (q_blk q) cs') /\
    vcq_rep (upd m (q_blk q) cs') q (<[i := x]> xs).
Proof.
  intros (cs & Hb & Hs & Hw & Hrep) Hi Hlow.
  assert (Hl := cr_len _ _ _ Hrep). assert (Hr := cr_read _ _ _ Hrep).
  assert (Hsz := cr_size _ _ _ Hrep).
  destruct (lookup_lt_is_Some_2 xs i Hi) as [y Hy].
  assert (Hsl : slot n (q_read q) i = q_read q + i) by (unfold slot; by rewrite decide_True).
  assert (Hc := cr_low _ _ _ Hrep i y Hy). rewrite Hsl in Hc.
  unfold vcq_set. erewrite assign_live by done.
  eexists. split; [done|]. eexists. split; [by eapply blk_upd|].
  rewrite insert_length. split; [done|]. split; [done|].
  assert (Hneq : forall k, k < n -> k <> i -> slot n (q_read q) k <> q_read q + i).
  { intros k Hk Hne Heq. apply Hne. apply (slot_inj (q_read q)); [done|done|lia|congruence]. }
  split.
  - by rewrite insert_length.
  - done.
  - by rewrite insert_length.
  - intros k z Hk. assert (k < length xs).
    { apply lookup_lt_Some in Hk. by rewrite insert_length in Hk. }
    destruct (decide (k = i)) as [->|Hne].
    + rewrite list_lookup_insert in Hk by done. injection Hk as <-.
      rewrite Hsl. apply list_lookup_insert. lia.
    + rewrite list_lookup_insert_ne in Hk by done.
      rewrite list_lookup_insert_ne by (apply not_eq_sym, Hneq; lia).
      by apply (cr_low _ _ _ Hrep).
  - intros k z Hk. assert (k < length xs).
    { apply lookup_lt_Some in Hk. by rewrite insert_length in Hk. }
    rewrite list_lookup_insert_ne by lia.
    destruct (decide (k = i)) as [->|Hne].
    + destruct (cr_up _ _ _ Hrep i y Hy) as (w & Hw1 & Hw2). exists w. split; [done|]. lia.
    + rewrite list_lookup_insert_ne in Hk by done. by apply (cr_up _ _ _ Hrep).
  - rewrite insert_length. intros k Hk.
    rewrite !list_lookup_insert_ne.
    + by apply (cr_vac _ _ _ Hrep).
    + assert (slot n (q_read q) k < n) by (apply slot_lt; lia). lia.
    + apply not_eq_sym, Hneq; lia.
Qed.

(** push_back(q[i]) when the argument survives the eviction. *)
Lemma vcq_push_own_eq m q xs i x : vcq_rep m q xs -> xs !! i = Some x ->
  (length xs < n \/ 0 < i) -> vcq_push_own E n q i m = vcq_push E n q x m.
Proof.
  intros Hrep Hi Hc. assert (Hg := vcq_rep_get _ _ _ _ _ Hrep Hi). unfold vcq_get in Hg.
  destruct Hrep as (cs & Hb & Hs & Hw & Hrep).
  assert (Hl := cr_len _ _ _ Hrep). assert (Hr := cr_read _ _ _ Hrep).
  assert (Hsz := cr_size _ _ _ Hrep). assert (Hil := lookup_lt_Some _ _ _ Hi).
  unfold vcq_push_own, vcq_push. set (b := q_blk q) in *. set (r := q_read q) in *.
  assert (Hcell : cs !! (r + i) = Some (Live x)).
  { unfold read in Hg. rewrite (with_block_blk _ _ _ _ Hb) in Hg.
    destruct (cs !! (r + i)) as [[|z]|]; simplify_eq; done. }
  set (w := q_write q) in *.
  assert (Hwn : w < n) by (rewrite Hw; apply slot_lt; lia).
  assert (Hne1 : r + i <> w /\ r + i <> w + n).
  { rewrite Hw. unfold slot. case_decide; lia. }
  destruct Hne1 as [Hne1 Hne2].
  assert (Hstep : forall B (K : mem A -> res B) m1 cs1,
    blk m1 b cs1 -> cs1 !! (r + i) = Some (Live x) -> length cs1 = 2 * n ->
    (let* x0 := read m1 b (r + i) in
     let* m2 := construct E m1 b w x0 in
     let* y := read m2 b (r + i) in
     let* m3 := construct E m2 b (w + n) y in K m3) =
    (let* m2 := construct E m1 b w x in
     let* m3 := construct E m2 b (w + n) x in K m3)).
  { intros B K m1 cs1 Hb1 Hx1 Hl1. rewrite (read_ok m1 b cs1 _ x) by done. cbn [bind].
    destruct (lookup_lt_is_Some_2 cs1 w) as [c Hc1]; [lia|].
    assert (Hcon : exists m2, construct E m1 b w x = Ok m2 /\ blk m2 b (<[w := Live x]> cs1)).
    { unfold construct. rewrite (with_block_blk _ _ _ _ Hb1), Hc1.
      destruct c; eexists; (split; [done|]); [by eapply blk_upd|]. 
      unfold blk; simpl. apply list_lookup_insert. by eapply blk_lt. }
    destruct Hcon as (m2 & -> & Hb2). cbn [bind].
    rewrite (read_ok m2 b _ _ x Hb2); [done|]. by rewrite list_lookup_insert_ne. }
  destruct (decide (q_size q = n)) as [Hf|Hf].
  - destruct xs as [|x0 xs]; [done|].
    assert (Hwr : w = r) by (rewrite Hw, <- Hs, Hf; by apply slot_full).
    assert (Hr0 : slot n r 0 = r) by (unfold slot; rewrite Nat.add_0_r; by rewrite decide_True).
    assert (H0 := cr_low _ _ _ Hrep 0 x0 eq_refl). fold r in H0. rewrite Hr0, <- Hwr in H0.
    destruct (cr_up _ _ _ Hrep 0 x0 eq_refl) as (y0 & Hy0 & _). fold r in Hy0. rewrite Hr0 in Hy0.
    rewrite (Nat.add_comm n r), <- Hwr in Hy0.
    erewrite (destroy_live E m b cs w x0) by done. cbn [bind].
    erewrite (destroy_live E _ b _ (w + n) y0).
    2:{ by eapply blk_upd. }
    2:{ rewrite list_lookup_insert_ne by lia. done. }
    cbn [bind]. rewrite upd_upd.
    set (cs1 := <[w + n := dead E (Live y0)]> (<[w := dead E (Live x0)]> cs)).
    apply (Hstep _ _ _ cs1).
    + by eapply blk_upd.
    + unfold cs1. by rewrite !list_lookup_insert_ne by lia.
    + unfold cs1. by rewrite !insert_length.
  - cbn [bind]. by apply (Hstep _ _ _ cs).
Qed.

Lemma vcq_after_exists ops m outs xs : 0 < n -> bounded_queue n [] ops = Some (outs, xs) ->
  exists q m1, vcq_after E n ops m outs q m1.
Proof.
  intros Hn Hbq. destruct (vcq_new_rep m Hn) as (q0 & m0 & E0 & Hblk & Hold & Hleak & Hrd & Hrep).
  destruct (vcq_run_rep ops Hn m0 q0 [] outs xs Hrep Hbq) as (q' & cs' & E1 & Hb & Hr & Hrd').
  exists q', (upd m0 (q_blk q0) cs'), q0, m0. done.
Qed.

Lemma vcq_after_rep ops m outs xs outs' q m1 : 0 < n -> bounded_queue n [] ops = Some (outs, xs) ->
  vcq_after E n ops m outs' q m1 ->
  outs' = outs /\ vcq_rep m1 q xs /\ q_read q = (pushes ops - length xs) mod n /\
  leaks m1 = leaks m /\ (forall b cs, blk m b cs -> blk m1 b cs /\ b <> q_blk q).
Proof.
  intros Hn Hbq (q0' & m0' & E0' & E1').
  destruct (vcq_new_rep m Hn) as (q0 & m0 & E0 & Hblk & Hold & Hleak & Hrd & Hrep).
  rewrite E0 in E0'. injection E0' as <- <-.
  destruct (vcq_run_rep ops Hn m0 q0 [] outs xs Hrep Hbq) as (q' & cs' & E1 & Hb & Hr & Hrd').
  rewrite E1 in E1'. injection E1' as <- <- <-. split; [done|]. split; [done|].
  split; [by rewrite Hrd', Hrd|]. split; [done|]. intros b cs Hbb.
  assert (b <> q_blk q0) by (rewrite Hblk; apply blk_lt in Hbb; lia).
  split; [|congruence]. apply blk_upd_ne; [done|]. by apply Hold.
Qed.

Lemma vcq_rep_mono m m' q xs : (forall cs, blk m (q_blk q) cs -> blk m' (q_blk q) cs) ->
  vcq_rep m q xs -> vcq_rep m' q xs.
Proof. intros H (cs & Hb & Hr). exists cs. auto. Qed.

Lemma vcq_rep_reads m q xs : vcq_rep m q xs -> vcq_reads q m xs.
Proof.
  intros Hr. split; [|split].
  - by destruct Hr as (cs & _ & Hs & _).
  - destruct Hr as (cs & _ & Hs & _). unfold vcq_empty. rewrite bool_decide_eq_true, Hs.
    by rewrite length_zero_iff_nil.
  - intros i x Hi. by eapply vcq_rep_get.
Qed.

Lemma vcq_run_two m p q xs ys ops outs zs : 0 < n -> q_blk p <> q_blk q ->
  vcq_rep m p xs -> vcq_rep m q ys -> bounded_queue n ys ops = Some (outs, zs) ->
  exists q' m', vcq_run E n ops q m = Ok (outs, q', m') /\ vcq_reads q' m' zs /\ vcq_reads p m' xs.
Proof.
  intros Hn Hne Hp Hq Hbq.
  destruct (vcq_run_rep ops Hn m q ys outs zs Hq Hbq) as (q' & cs' & E1 & Hb & Hr & Hrd').
  exists q', (upd m (q_blk q) cs'). split; [done|].
  split; apply vcq_rep_reads; [done|]. by apply vcq_rep_frame.
Qed.
End proofs.
