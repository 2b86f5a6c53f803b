(** Vcb (cyclic.hpp:9-121) is a sliding window. *)
From Verif Require Import Base.Cpp Base.Mem Model.Cyclic Spec.QueueSpec Proofs.MemLemmas.
Set Default Proof Using "Type".

Section proofs.
Context {A : Type} (E : ety A) (n : nat).
Implicit Types (s : vcb) (m : mem A) (w : list A).

(** All cells are live; the lower half is right from [cb_data] on, the upper half before it,
    and the part of the lower half that will be read after wrap-around agrees. *)
Definition vcb_rep m s w : Prop := exists lo hi,
  blk m (cb_blk s) ((Live <$> lo) ++ (Live <$> hi)) /\ length lo = n /\ length hi = n /\
  cb_data s < n /\ take (cb_data s) lo = take (cb_data s) hi /\
  w = drop (cb_data s) lo ++ take (cb_data s) hi.

Lemma vcb_rep_length m s w : vcb_rep m s w -> length w = n.
Proof.
  intros (lo & hi & _ & H1 & H2 & Hd & _ & ->). rewrite app_length, drop_length, take_length. lia.
Qed.

Lemma vcb_rep_get m s w i x : vcb_rep m s w -> w !! i = Some x -> vcb_get s i m = Ok x.
Proof.
  intros (lo & hi & Hb & H1 & H2 & Hd & _ & ->) Hi.
  unfold vcb_get. eapply read_ok; [exact Hb|].
  rewrite <- fmap_app, list_lookup_fmap.
  assert (H : (lo ++ hi) !! (cb_data s + i) = Some x); [|by rewrite H].
  destruct (decide (i < n - cb_data s)).
  - rewrite lookup_app_l in Hi by (rewrite drop_length; lia). rewrite lookup_drop in Hi.
    by rewrite lookup_app_l by lia.
  - rewrite lookup_app_r in Hi by (rewrite drop_length; lia). rewrite drop_length in Hi.
    rewrite lookup_app_r by lia.
    rewrite lookup_take in Hi.
    + rewrite <- Hi. f_equal. lia.
    + apply lookup_lt_Some in Hi. rewrite take_length in Hi. lia.
Qed.

Lemma vcb_push_rep m s w v : vcb_rep m s w -> exists s' cs',
  vcb_push E n s v m = Ok (s', upd m (cb_blk s) cs') /\ cb_blk s' = cb_blk s /\
  vcb_rep (upd m (cb_blk s) cs') s' (drop 1 w ++ [v]).
Proof.
  intros (lo & hi & Hb & H1 & H2 & Hd & Hag & ->).
  set (p := cb_data s) in *. set (b := cb_blk s) in *.
  destruct (lookup_lt_is_Some_2 lo p) as [x Hx]; [lia|].
  destruct (lookup_lt_is_Some_2 hi p) as [y Hy]; [lia|].
  set (cs0 := (Live <$> lo) ++ (Live <$> hi)) in *.
  assert (Hlen : length cs0 = n + n) by (unfold cs0; rewrite app_length, !fmap_length; lia).
  assert (Hp0 : cs0 !! p = Some (Live x)).
  { unfold cs0. rewrite lookup_app_l by (rewrite fmap_length; lia). by rewrite list_lookup_fmap, Hx. }
  assert (Hp1 : cs0 !! (p + n) = Some (Live y)).
  { unfold cs0. rewrite lookup_app_r by (rewrite fmap_length; lia). rewrite fmap_length.
    replace (p + n - length lo) with p by lia. by rewrite list_lookup_fmap, Hy. }
  set (lo' := <[p := v]> lo). set (hi' := <[p := v]> hi).
  assert (Hpush : vcb_push E n s v m =
     Ok (Vcb b (p + 1 - n * (if decide (p + 1 = n) then 1 else 0)),
         upd m b ((Live <$> lo') ++ (Live <$> hi')))).
  { unfold vcb_push. fold p b.
    erewrite (destroy_live E m b cs0 p x) by done. cbn [bind].
    erewrite (destroy_live E _ b _ (p + n) y).
    2:{ by eapply blk_upd. }
    2:{ rewrite list_lookup_insert_ne by lia. done. }
    cbn [bind]. rewrite upd_upd.
    erewrite (construct_vacant E _ b _ p).
    2:{ by eapply blk_upd. }
    2:{ rewrite list_lookup_insert_ne by lia. apply list_lookup_insert. lia. }
    2:{ apply dead_vacant. }
    cbn [bind]. rewrite upd_upd.
    erewrite (construct_vacant E _ b _ (p + n)).
    2:{ by eapply blk_upd. }
    2:{ rewrite list_lookup_insert_ne by lia. apply list_lookup_insert. rewrite insert_length. lia. }
    2:{ apply dead_vacant. }
    cbn [bind]. rewrite upd_upd. do 3 f_equal.
    rewrite (list_insert_commute _ p (p + n)) by lia. rewrite list_insert_insert.
    rewrite list_insert_insert.
    unfold cs0, lo', hi'.
    rewrite !list_fmap_insert.
    rewrite (insert_app_l (Live <$> lo)) by (rewrite fmap_length; lia).
    rewrite insert_app_r_alt by (rewrite insert_length, fmap_length; lia).
    rewrite insert_length, fmap_length. by replace (p + n - length lo) with p by lia. }
  eexists _, _. split; [exact Hpush|]. split; [done|].
  exists lo', hi'. cbn [cb_blk cb_data].
  assert (Hlo' : length lo' = n) by (unfold lo'; by rewrite insert_length).
  assert (Hhi' : length hi' = n) by (unfold hi'; by rewrite insert_length).
  assert (Hag' : take (S p) lo' = take (S p) hi').
  { unfold lo', hi'. rewrite (take_S_r _ p v), (take_S_r _ p v).
    - rewrite !take_insert by lia. by rewrite Hag.
    - apply list_lookup_insert. lia.
    - apply list_lookup_insert. lia. }
  assert (Hw : drop 1 (drop p lo ++ take p hi) ++ [v] = drop (S p) lo' ++ take (S p) hi').
  { rewrite (drop_S lo x p Hx). simpl. rewrite drop_0, <- (assoc_L (++)).
    unfold lo', hi'. rewrite drop_insert_gt by lia. f_equal.
    rewrite (take_S_r _ p v) by (apply list_lookup_insert; lia).
    by rewrite take_insert by lia. }
  split; [by eapply blk_upd|]. split; [done|]. split; [done|].
  rewrite Hw. case_decide as Hwrap.
  - replace (p + 1 - n * 1) with 0 by lia. split; [lia|]. split; [done|].
    rewrite drop_0, take_0, app_nil_r.
    rewrite (drop_ge lo') by lia. rewrite <- Hag'. simpl. rewrite take_ge by lia. done.
  - replace (p + 1 - n * 0) with (S p) by lia. split; [lia|]. done.
Qed.

Lemma vcb_pushes_rep vs : forall m s w, vcb_rep m s w -> exists s' cs',
  vcb_pushes E n s vs m = Ok (s', upd m (cb_blk s) cs') /\ cb_blk s' = cb_blk s /\
  vcb_rep (upd m (cb_blk s) cs') s' (drop (length vs) (w ++ vs)).
Proof.
  induction vs as [|v vs IH]; intros m s w Hr.
  - destruct Hr as (lo & hi & Hb & Hr). exists s, ((Live <$> lo) ++ (Live <$> hi)).
    rewrite upd_same by done. cbn [vcb_pushes length]. rewrite drop_0, app_nil_r.
    split; [done|]. split; [done|]. exists lo, hi. done.
  - assert (Hlw := vcb_rep_length _ _ _ Hr).
    assert (Hn : 0 < n) by (destruct Hr as (? & ? & _ & _ & _ & ? & _); lia).
    destruct (vcb_push_rep m s w v Hr) as (s1 & cs1 & E1 & Hb1 & Hr1).
    destruct (IH _ _ _ Hr1) as (s2 & cs2 & E2 & Hb2 & Hr2).
    cbn [vcb_pushes]. rewrite E1. cbn [bind]. rewrite E2. rewrite Hb1, upd_upd in *.
    eexists _, _. split; [done|]. split; [congruence|].
    replace (drop (length (v :: vs)) (w ++ v :: vs)) with (drop (length vs) ((drop 1 w ++ [v]) ++ vs)).
    { done. }
    simpl. rewrite <- (assoc_L (++)). simpl.
    destruct w as [|a w]; simpl in *; [lia|]. by rewrite drop_0.
Qed.

Lemma vcb_new_rep m d : 0 < n -> exists s m',
  vcb_new E n d m = Ok (s, m') /\ cb_blk s = length (blocks m) /\
  (forall b cs, blk m b cs -> blk m' b cs) /\
  length (blocks m') = S (length (blocks m)) /\ leaks m' = leaks m /\
  vcb_rep m' s (replicate n d).
Proof.
  intros Hn. unfold vcb_new. destruct (alloc m (n * 2)) as [b m1] eqn:Ea.
  assert (Hb1 := alloc_blk m (n * 2) _ _ Ea).
  assert (Hlb : b = length (blocks m)) by (by injection Ea as <- <-).
  replace (n * 2) with (length (replicate (n + n) d)) by (rewrite replicate_length; lia).
  rewrite (fill_loop E _ m1 b (replicate (n + n) d) (replicate (n * 2) Raw) []).
  - cbn [bind]. eexists _, _. split; [done|]. split; [done|].
    split; [|split; [|split]].
    + intros b' cs Hb'. destruct (alloc_old m _ b m1 b' cs Ea Hb') as [H1 H2].
      by apply blk_upd_ne.
    + rewrite length_upd. injection Ea as <- <-. simpl. rewrite app_length. simpl. lia.
    + rewrite leaks_upd. by injection Ea as <- <-.
    + exists (replicate n d), (replicate n d). cbn [cb_blk cb_data].
      rewrite !replicate_length. split; [|split_and!; try done].
      * rewrite app_nil_r. rewrite <- fmap_app, <- replicate_add. by eapply blk_upd.
      * simpl. rewrite drop_0, app_nil_r. done.
  - by rewrite app_nil_r.
  - rewrite !replicate_length. lia.
  - apply forall_replicate_raw.
  - intros i x cs Hx. apply lookup_replicate in Hx as [-> _]. done.
Qed.

(** What a freshly created or copied object guarantees about the rest of memory. *)
Definition mem_ext m m' : Prop :=
  (forall b cs, blk m b cs -> blk m' b cs) /\ leaks m' = leaks m.

Lemma vcb_copy_rep m s w : vcb_rep m s w -> exists s' m',
  vcb_copy E n s m = Ok (s', m') /\ cb_blk s' <> cb_blk s /\ mem_ext m m' /\
  vcb_rep m' s' w /\ vcb_rep m' s w.
Proof.
  intros (lo & hi & Hb & H1 & H2 & Hd & Hag & ->).
  unfold vcb_copy. destruct (alloc m (n * 2)) as [b m1] eqn:Ea.
  assert (Hb1 := alloc_blk m (n * 2) _ _ Ea).
  destruct (alloc_old m _ b m1 _ _ Ea Hb) as [Hb1o Hne].
  replace (n * 2) with (length (lo ++ hi)) by (rewrite app_length; lia).
  rewrite (fill_loop E _ m1 b (lo ++ hi) (replicate (n * 2) Raw) []).
  - cbn [bind]. rewrite app_nil_r, fmap_app. eexists _, _. split; [done|]. split; [done|].
    assert (Hold : forall b' cs, blk m b' cs -> blk (upd m1 b ((Live <$> lo) ++ (Live <$> hi))) b' cs).
    { intros b' cs Hb'. destruct (alloc_old m _ b m1 b' cs Ea Hb') as [? ?]. by apply blk_upd_ne. }
    split; [split; [done|by injection Ea as <- <-]|].
    split; exists lo, hi; cbn [cb_blk cb_data]; split_and!; try done.
    + by eapply blk_upd.
    + by apply Hold.
  - by rewrite app_nil_r.
  - rewrite replicate_length, app_length. lia.
  - apply forall_replicate_raw.
  - intros i x cs Hx. erewrite read_ok; [done| |].
    + apply blk_upd_ne; [done|exact Hb1o].
    + rewrite <- fmap_app, list_lookup_fmap, Hx. done.
Qed.

Lemma vcb_move_rep m s w : vcb_rep m s w -> exists s' m',
  vcb_move E n s m = Ok (s', m') /\ cb_blk s' <> cb_blk s /\ leaks m' = leaks m /\
  (forall b cs, b <> cb_blk s -> blk m b cs -> blk m' b cs) /\
  vcb_rep m' s' w /\ vcb_rep m' s (mvd E <$> w).
Proof.
  intros (lo & hi & Hb & H1 & H2 & Hd & Hag & ->).
  unfold vcb_move. destruct (alloc m (n * 2)) as [b m1] eqn:Ea.
  assert (Hb1 := alloc_blk m (n * 2) _ _ Ea).
  destruct (alloc_old m _ b m1 _ _ Ea Hb) as [Hb1o Hne].
  replace (n * 2) with (length (lo ++ hi)) by (rewrite app_length; lia).
  rewrite (move_loop E _ m1 b (cb_blk s) (lo ++ hi) (replicate (n * 2) Raw) [] []).
  - cbn [bind]. rewrite !app_nil_r, !fmap_app. eexists _, _. split; [done|].
    split; [by apply not_eq_sym|]. split; [by injection Ea as <- <-|].
    split; [|split].
    + intros b' cs Hbs Hb'. destruct (alloc_old m _ b m1 b' cs Ea Hb') as [? ?].
      apply blk_upd_ne; [done|]. by apply blk_upd_ne.
    + exists lo, hi. cbn [cb_blk cb_data]. split_and!; try done.
      eapply blk_upd. apply blk_upd_ne; [|exact Hb1]. congruence.
    + exists (mvd E <$> lo), (mvd E <$> hi). rewrite !fmap_length. split_and!; try done.
      * apply blk_upd_ne; [congruence|]. by eapply blk_upd.
      * by rewrite <- !fmap_take, Hag.
      * by rewrite <- fmap_take, <- fmap_drop.
  - congruence.
  - by rewrite app_nil_r.
  - by rewrite app_nil_r, fmap_app.
  - rewrite replicate_length, app_length. lia.
  - apply forall_replicate_raw.
  - intros i x m' Hx. done.
Qed.

(** Assignment loops: cell by cell destroy and construct. *)
Lemma vcb_copy_assign_rep m s o w w' : cb_blk s <> cb_blk o -> vcb_rep m s w -> vcb_rep m o w' ->
  exists s' cs, vcb_copy_assign E n s o m = Ok (s', upd m (cb_blk s) cs) /\ cb_blk s' = cb_blk s /\
    vcb_rep (upd m (cb_blk s) cs) s' w' /\ vcb_rep (upd m (cb_blk s) cs) o w'.
Proof.
  intros Hne (lo1 & hi1 & Hb1 & Hl1 & Hh1 & _) (lo & hi & Hb & H1 & H2 & Hd & Hag & ->).
  unfold vcb_copy_assign.
  assert (Hloop : for_up (n * 2) 0 (fun i m =>
      let* m := destroy E m (cb_blk s) i in
      let* x := read m (cb_blk o) i in construct E m (cb_blk s) i x) m
     = Ok (upd m (cb_blk s) (Live <$> (lo ++ hi)))).
  { apply wp_eq. apply (wp_for_up (fun i m' => m' = upd m (cb_blk s)
        ((Live <$> take i (lo ++ hi)) ++ (Live <$> drop i (lo1 ++ hi1))))).
    - simpl. by rewrite drop_0, fmap_app, upd_same.
    - intros k m' _ Hk ->. simpl in Hk.
      destruct (lookup_lt_is_Some_2 (lo ++ hi) k) as [x Hx]; [rewrite app_length; lia|].
      destruct (lookup_lt_is_Some_2 (lo1 ++ hi1) k) as [y Hy]; [rewrite app_length; lia|].
      rewrite (drop_S _ _ _ Hy), fmap_cons.
      assert (Hkl : length (Live <$> take k (lo ++ hi)) = k).
      { rewrite fmap_length, take_length, app_length. lia. }
      apply wp_bind. eapply wp_of_eq.
      { eapply (destroy_live E _ _ _ k y); [by eapply blk_upd|].
        rewrite lookup_app_r by lia. by replace (k - length (Live <$> take k (lo ++ hi))) with 0 by lia. }
      rewrite upd_upd. rewrite insert_boundary by done.
      apply wp_bind. eapply wp_of_eq.
      { eapply (read_ok _ _ ((Live <$> lo) ++ (Live <$> hi)) k x).
        - apply blk_upd_ne; done.
        - by rewrite <- fmap_app, list_lookup_fmap, Hx. }
      eapply wp_of_eq.
      { rewrite <- (assoc_L (++)). eapply (construct_vacant E _ _ _ k (dead E (Live y)));
          [by eapply blk_upd| |apply dead_vacant].
        rewrite lookup_app_r by lia. by replace (k - length (Live <$> take k (lo ++ hi))) with 0 by lia. }
      cbv beta. rewrite upd_upd. f_equal. simpl. rewrite insert_boundary by done.
      erewrite take_S_r by done. by rewrite fmap_app.
    - intros m' ->. simpl. rewrite take_ge, drop_ge by (rewrite app_length; lia).
      by rewrite app_nil_r. }
  rewrite Hloop. cbn [bind]. eexists _, _. split; [done|]. split; [done|].
  split; exists lo, hi; cbn [cb_blk cb_data]; rewrite ?fmap_app; split_and!; try done.
  - by eapply blk_upd.
  - apply blk_upd_ne; done.
Qed.

Lemma vcb_move_assign_rep m s o w w' : cb_blk s <> cb_blk o -> vcb_rep m s w -> vcb_rep m o w' ->
  exists s' m', vcb_move_assign E n s o m = Ok (s', m') /\ cb_blk s' = cb_blk s /\ leaks m' = leaks m /\
    (forall b cs, b <> cb_blk s -> b <> cb_blk o -> blk m b cs -> blk m' b cs) /\
    vcb_rep m' s' w' /\ vcb_rep m' o (mvd E <$> w').
Proof.
  intros Hne (lo1 & hi1 & Hb1 & Hl1 & Hh1 & _) (lo & hi & Hb & H1 & H2 & Hd & Hag & ->).
  unfold vcb_move_assign.
  set (xs := lo ++ hi). set (ys := lo1 ++ hi1).
  assert (Hxl : length xs = n * 2) by (unfold xs; rewrite app_length; lia).
  assert (Hyl : length ys = n * 2) by (unfold ys; rewrite app_length; lia).
  assert (Hloop : for_up (n * 2) 0 (fun i m =>
      let* m := destroy E m (cb_blk s) i in
      let* (x, m) := move_out E m (cb_blk o) i in construct E m (cb_blk s) i x) m
     = Ok (upd (upd m (cb_blk o) (Live <$> (mvd E <$> xs))) (cb_blk s) (Live <$> xs))).
  { apply wp_eq. apply (wp_for_up (fun i m' => m' =
        upd (upd m (cb_blk o) (Live <$> ((mvd E <$> take i xs) ++ drop i xs))) (cb_blk s)
        ((Live <$> take i xs) ++ (Live <$> drop i ys)))).
    - simpl. rewrite !drop_0. unfold xs, ys. rewrite !fmap_app.
      by rewrite (upd_same m (cb_blk o)), upd_same.
    - intros k m' _ Hk ->. simpl in Hk.
      destruct (lookup_lt_is_Some_2 xs k) as [x Hx]; [lia|].
      destruct (lookup_lt_is_Some_2 ys k) as [y Hy]; [lia|].
      rewrite (drop_S ys _ _ Hy), fmap_cons.
      assert (Hkl : length (Live <$> take k xs) = k) by (rewrite fmap_length, take_length; lia).
      assert (Hbs : forall cs, blk (upd m (cb_blk o) cs) (cb_blk s) ((Live <$> lo1) ++ (Live <$> hi1))).
      { intros cs. by apply blk_upd_ne. }
      apply wp_bind. eapply wp_of_eq.
      { eapply (destroy_live E _ _ _ k y); [by eapply blk_upd|].
        rewrite lookup_app_r by lia. by replace (k - length (Live <$> take k xs)) with 0 by lia. }
      rewrite upd_upd. rewrite insert_boundary by done.
      apply wp_bind. eapply wp_of_eq.
      { eapply (move_out_live E _ (cb_blk o) _ k x).
        - apply blk_upd_ne; [congruence|]. by eapply blk_upd.
        - rewrite list_lookup_fmap. rewrite lookup_app_r by (rewrite fmap_length, take_length; lia).
          rewrite fmap_length, take_length, lookup_drop.
          replace (k + (k - Nat.min k (length xs))) with k by lia. by rewrite Hx. }
      cbv beta iota. rewrite (upd_comm _ (cb_blk s) (cb_blk o)) by done. rewrite upd_upd.
      eapply wp_of_eq.
      { rewrite <- (assoc_L (++)). eapply (construct_vacant E _ _ _ k (dead E (Live y)));
          [by eapply blk_upd| |apply dead_vacant].
        rewrite lookup_app_r by lia. by replace (k - length (Live <$> take k xs)) with 0 by lia. }
      cbv beta. rewrite upd_upd. f_equal.
      + f_equal. rewrite (drop_S xs _ _ Hx). erewrite take_S_r by done.
        rewrite <- list_fmap_insert. f_equal. rewrite fmap_app. simpl.
        apply insert_boundary. rewrite fmap_length, take_length. lia.
      + simpl. rewrite insert_boundary by done. erewrite take_S_r by done. by rewrite fmap_app.
    - intros m' ->. simpl. rewrite take_ge, !drop_ge by lia. by rewrite !app_nil_r. }
  rewrite Hloop. cbn [bind]. eexists _, _. split; [done|]. split; [done|]. split; [done|].
  split; [|split].
  - intros b cs Hbs Hbo Hb'. apply blk_upd_ne; [done|]. by apply blk_upd_ne.
  - exists lo, hi. cbn [cb_blk cb_data]. split_and!; try done.
    unfold xs. rewrite <- fmap_app. eapply blk_upd. apply blk_upd_ne; done.
  - exists (mvd E <$> lo), (mvd E <$> hi). rewrite !fmap_length. split_and!; try done.
    + unfold xs. rewrite <- !fmap_app. apply blk_upd_ne; [congruence|]. by eapply blk_upd.
    + by rewrite <- !fmap_take, Hag.
    + by rewrite fmap_app, <- fmap_take, <- fmap_drop.
Qed.

Lemma vcb_destroy_rep m s w : vcb_rep m s w ->
  vcb_destroy E n s m = Ok (Mem (<[cb_blk s := None]> (blocks m)) (leaks m)).
Proof.
  intros (lo & hi & Hb & H1 & H2 & _). unfold vcb_destroy.
  replace (n * 2) with (length (lo ++ hi)) by (rewrite app_length; lia).
  rewrite (destroy_loop E _ m (cb_blk s) (lo ++ hi) []).
  - cbn [bind]. erewrite free_ok.
    + unfold upd; cbn [blocks leaks]. by rewrite list_insert_insert.
    + by eapply blk_upd.
    + rewrite app_nil_r. apply dead_list_free.
  - by rewrite app_nil_r, fmap_app.
  - done.
Qed.

Lemma vcb_iter_rep m s w : vcb_rep m s w -> vcb_iter n s m = Ok w.
Proof.
  intros Hr. assert (Hl := vcb_rep_length _ _ _ Hr).
  unfold vcb_iter, read_range, vcb_begin, vcb_end.
  replace (cb_data s + n - cb_data s) with n by lia. apply wp_eq.
  apply (wp_for_up (fun i acc => acc = take (i - cb_data s) w)).
  - by rewrite Nat.sub_diag, take_0.
  - intros k acc Hk1 Hk2 ->.
    destruct (lookup_lt_is_Some_2 w (k - cb_data s)) as [x Hx]; [lia|].
    apply wp_bind. eapply wp_of_eq.
    { assert (Hg := vcb_rep_get _ _ _ _ _ Hr Hx). unfold vcb_get in Hg.
      replace (cb_data s + (k - cb_data s)) with k in Hg by lia. exact Hg. }
    apply wp_ok. replace (S k - cb_data s) with (S (k - cb_data s)) by lia.
    by rewrite (take_S_r _ _ x).
  - intros acc ->. replace (cb_data s + n - cb_data s) with n by lia. by rewrite take_ge by lia.
Qed.

(** Writing through operator[] into the lower half. *)
Lemma vcb_set_rep m s w i x : vcb_rep m s w -> cb_data s + i < n ->
  exists cs', vcb_set E s i x m = Ok (upd m (cb_blk s) cs') /\
    vcb_rep (upd m (cb_blk s) cs') s (<[i := x]> w).
Proof.
  intros (lo & hi & Hb & H1 & H2 & Hd & Hag & ->) Hi.
  destruct (lookup_lt_is_Some_2 lo (cb_data s + i)) as [y Hy]; [lia|].
  unfold vcb_set. erewrite assign_live; [|exact Hb|].
  2:{ rewrite lookup_app_l by (rewrite fmap_length; lia). by rewrite list_lookup_fmap, Hy. }
  eexists. split; [done|].
  exists (<[cb_data s + i := x]> lo), hi. rewrite insert_length. split_and!; try done.
  - rewrite list_fmap_insert, <- insert_app_l by (rewrite fmap_length; lia). by eapply blk_upd.
  - by rewrite take_insert by lia.
  - rewrite insert_app_l by (rewrite drop_length; lia).
    f_equal. symmetry. rewrite drop_insert_le by lia. f_equal. lia.
Qed.

Lemma last_n_app (d : A) (vs us : list A) : last_n n d (vs ++ us) = drop (length us) (last_n n d vs ++ us).
Proof.
  unfold last_n. rewrite (assoc_L (++)), app_length.
  rewrite <- drop_drop. f_equal.
  rewrite drop_app_le by (rewrite app_length; lia). done.
Qed.

Lemma vcb_push_data s v m s' m' : cb_data s < n -> vcb_push E n s v m = Ok (s', m') ->
  cb_data s' = (cb_data s + 1) mod n.
Proof.
  intros Hd H. unfold vcb_push in H.
  repeat match type of H with (bind ?r _ = _) => destruct r; cbn [bind] in H; [|done..] end.
  injection H as <- _. cbn [cb_data]. case_decide as Hc.
  - rewrite Hc, Nat.mod_same by lia. lia.
  - rewrite Nat.mod_small by lia. lia.
Qed.

Lemma vcb_pushes_data vs : forall s m s' m', cb_data s < n -> vcb_pushes E n s vs m = Ok (s', m') ->
  cb_data s' = (cb_data s + length vs) mod n.
Proof.
  induction vs as [|v vs IH]; intros s m s' m' Hd; cbn [vcb_pushes].
  - intros [= <- <-]. simpl. by rewrite Nat.add_0_r, Nat.mod_small.
  - destruct (vcb_push E n s v m) as [[s1 m1]| | |] eqn:E1; cbn [bind]; [|done..].
    intros H. apply vcb_push_data in E1; [|done].
    apply IH in H; [|rewrite E1; apply Nat.mod_upper_bound; lia].
    rewrite H, E1. rewrite Nat.add_mod_idemp_l by lia. f_equal. simpl. lia.
Qed.

Lemma vcb_rep_mono m m' s w : (forall cs, blk m (cb_blk s) cs -> blk m' (cb_blk s) cs) ->
  vcb_rep m s w -> vcb_rep m' s w.
Proof. intros H (lo & hi & Hb & Hr). exists lo, hi. auto. Qed.

Lemma vcb_rep_frame m s w b cs : cb_blk s <> b -> vcb_rep m s w -> vcb_rep (upd m b cs) s w.
Proof. intros Hne. apply vcb_rep_mono. intros cs' H. by apply blk_upd_ne. Qed.

Lemma vcb_after_rep d vs m s m1 : 0 < n -> vcb_after E n d vs m s m1 ->
  vcb_rep m1 s (last_n n d vs) /\ cb_data s = length vs mod n /\ leaks m1 = leaks m /\
  (forall b cs, blk m b cs -> blk m1 b cs /\ b <> cb_blk s).
Proof.
  intros Hn (s0 & m0 & E0 & E1).
  destruct (vcb_new_rep m d Hn) as (s0' & m0' & E0' & Hblk & Hold & Hlen & Hleak & Hrep).
  rewrite E0 in E0'. injection E0' as <- <-.
  assert (Hd0 : cb_data s0 = 0).
  { unfold vcb_new in E0. destruct (alloc m (n * 2)).
    match type of E0 with (bind ?r _ = _) => destruct r; cbn [bind] in E0; [|done..] end.
    by injection E0 as <- _. }
  destruct (vcb_pushes_rep vs _ _ _ Hrep) as (s' & cs' & E2 & Hb2 & Hr2).
  rewrite E1 in E2. injection E2 as <- ->.
  split; [exact Hr2|]. split.
  { assert (Hp := vcb_pushes_data vs s0 _ _ _ ltac:(lia) E1). rewrite Hp, Hd0. done. }
  split; [done|]. intros b cs Hb.
  assert (b <> cb_blk s0) by (rewrite Hblk; apply blk_lt in Hb; lia).
  split; [|congruence]. apply blk_upd_ne; [done|]. by apply Hold.
Qed.

Lemma vcb_after_exists d vs m : 0 < n -> exists s m1, vcb_after E n d vs m s m1.
Proof.
  intros Hn.
  destruct (vcb_new_rep m d Hn) as (s0 & m0 & E0 & Hblk & Hold & Hlen & Hleak & Hrep).
  destruct (vcb_pushes_rep vs _ _ _ Hrep) as (s' & cs' & E2 & Hb2 & Hr2).
  exists s', (upd m0 (cb_blk s0) cs'), s0, m0. done.
Qed.

Lemma vcb_rep_reads m s w : vcb_rep m s w -> vcb_reads n s m w.
Proof.
  intros H. split; [done|]. split; [by eapply vcb_rep_length|].
  intros i x Hi. by eapply vcb_rep_get.
Qed.

(** Two live objects. *)
Lemma vcb_push_two m s t w w' us : cb_blk s <> cb_blk t -> vcb_rep m s w -> vcb_rep m t w' ->
  exists t' m', vcb_pushes E n t us m = Ok (t', m') /\
    vcb_reads n t' m' (drop (length us) (w' ++ us)) /\ vcb_reads n s m' w.
Proof.
  intros Hne Hs Ht. destruct (vcb_pushes_rep us _ _ _ Ht) as (t' & cs' & E2 & Hb2 & Hr2).
  exists t', (upd m (cb_blk t) cs'). split; [done|].
  split; apply vcb_rep_reads; [done|]. by apply vcb_rep_frame.
Qed.
End proofs.
