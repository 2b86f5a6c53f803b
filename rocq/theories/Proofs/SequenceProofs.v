(** Array, ArrVec and views (sequence.hpp). *)
From Verif Require Import Base.Cpp Base.Mem Model.Vector Model.Sequence.
From Verif Require Import Spec.VectorSpec Spec.SequenceSpec Proofs.MemLemmas Proofs.VectorProofs.
Set Default Proof Using "Type".

Section proofs.
Context {A : Type} (E : ety A).
Implicit Types (m : mem A) (xs ys : list A) (v : arrvec).

(** ** Reading loops *)
Lemma iter_ok (f : nat -> res A) xs (n : nat) : n = length xs ->
  (forall i x, xs !! i = Some x -> f i = Ok x) ->
  for_up n 0 (fun i acc => let* x := f i in Ok (acc ++ [x])) [] = Ok xs.
Proof.
  intros -> Hf. apply wp_eq. apply (wp_for_up (fun i acc => acc = take i xs)).
  - by rewrite take_0.
  - intros k acc _ Hk ->. destruct (lookup_lt_is_Some_2 xs k Hk) as [x Hx].
    rewrite (Hf k x Hx). apply wp_ok. symmetry. by apply take_S_r.
  - intros acc ->. simpl. by rewrite firstn_all.
Qed.

Lemma arr_eq_ok (ne : A -> A -> bool) m b b' xs ys n :
  (forall x y, ne x y = false <-> x = y) -> n = length xs -> n = length ys ->
  (forall i x, xs !! i = Some x -> read m b i = Ok x) ->
  (forall i x, ys !! i = Some x -> read m b' i = Ok x) ->
  exists r, arr_eq n ne b b' m = Ok r /\ (r = true <-> xs = ys).
Proof.
  intros Hne H1 H2 Hx Hy. unfold arr_eq.
  apply (wp_loop (fun i => i <= n /\ take i xs = take i ys) (fun i => n - i)); [lia|..].
  { split; [lia|]. by rewrite !take_0. }
  intros i [Hi Ht]. case_decide as Hlt.
  - destruct (lookup_lt_is_Some_2 xs i) as [x Ex]; [lia|].
    destruct (lookup_lt_is_Some_2 ys i) as [y Ey]; [lia|].
    rewrite (Hx i x Ex), (Hy i y Ey). cbn [bind].
    destruct (ne x y) eqn:En; apply wp_ok.
    + split; [done|]. intros ->. assert (x = y) as Hxy by congruence. apply Hne in Hxy. congruence.
    + assert (x = y) as -> by (by apply Hne). split; [|lia]. split; [lia|].
      erewrite !take_S_r by done. by rewrite Ht.
  - apply wp_ok. split; [|done]. intros _.
    rewrite <- (firstn_all xs), <- (firstn_all ys). replace (length xs) with i by lia.
    by replace (length ys) with i by lia.
Qed.

(** ** ArrVec *)
Section arrvec.
Context (cap : nat).

(** Elements, then vacant cells up to the capacity. *)
Definition av_rep m v xs : Prop := exists rest,
  av_size v = length xs /\ blk m (av_blk v) ((Live <$> xs) ++ rest) /\ Forall (vacant E) rest /\
  length xs + length rest = cap.

Lemma av_rep_get m v xs i x : av_rep m v xs -> xs !! i = Some x -> read m (av_blk v) i = Ok x.
Proof.
  intros (rest & _ & Hb & _) Hi. eapply read_ok; [done|]. by apply lookup_live_app.
Qed.

Lemma av_rep_reads m v xs : av_rep m v xs -> av_reads v m xs.
Proof.
  intros Hr. assert (Hs : av_size v = length xs) by (by destruct Hr as (? & ? & _)).
  split; [done|]. split.
  - intros i x Hi. by eapply av_rep_get.
  - unfold av_iter. apply iter_ok; [done|]. intros i x Hi. by eapply av_rep_get.
Qed.

Lemma av_rep_mono m m' v xs : (forall cs, blk m (av_blk v) cs -> blk m' (av_blk v) cs) ->
  av_rep m v xs -> av_rep m' v xs.
Proof. intros H (rest & Hs & Hb & Hr). exists rest. split; [done|]. split; [by apply H|done]. Qed.

(** What building an object in fresh storage does to the rest. *)
Definition fresh (m m' : mem A) (b : nat) : Prop :=
  leaks m' = leaks m /\ (forall b' cs, blk m b' cs -> blk m' b' cs /\ b' <> b) /\
  allocations m' = S (allocations m).

Lemma alloc_fresh m n b m1 : alloc m n = (b, m1) -> fresh m m1 b.
Proof.
  intros Ea. split; [by injection Ea as _ <-|]. split.
  - intros b' cs Hb'. by apply (alloc_old _ _ _ _ b' cs Ea).
  - by eapply allocations_alloc.
Qed.

Lemma fresh_upd m m1 b cs cs' : fresh m m1 b -> blk m1 b cs -> fresh m (upd m1 b cs') b.
Proof.
  intros (Hl & Ho & Ha) Hb. split; [done|]. split.
  - intros b' cs'' Hb'. destruct (Ho _ _ Hb') as [? ?]. split; [by apply blk_upd_ne|done].
  - by rewrite (allocations_upd m1 b cs).
Qed.

Lemma av_new_rep m : exists v m', av_new cap m = (v, m') /\ av_rep m' v [] /\ fresh m m' (av_blk v).
Proof.
  unfold av_new. destruct (alloc m cap) as [b m1] eqn:Ea. eexists _, _. split; [done|]. simpl.
  split; [|by eapply alloc_fresh]. exists (replicate cap Raw). simpl. rewrite replicate_length.
  split_and!; try done; [by eapply alloc_blk|apply forall_replicate_raw].
Qed.

(** Construction of a new object from values read one by one. *)
Lemma build_rep m xs (body : nat -> nat -> mem A -> res (mem A)) : length xs <= cap ->
  (forall b m1 i x cs, fresh m m1 b -> blk m1 b cs -> xs !! i = Some x ->
      body b i (upd m1 b cs) = construct E (upd m1 b cs) b i x) ->
  exists b m1 m', alloc m cap = (b, m1) /\ for_up (length xs) 0 (body b) m1 = Ok m' /\
    av_rep m' (AV b (length xs)) xs /\ fresh m m' b.
Proof.
  intros Hc Hbody. destruct (alloc m cap) as [b m1] eqn:Ea.
  assert (Hb1 := alloc_blk _ _ _ _ Ea). assert (Hf := alloc_fresh _ _ _ _ Ea).
  exists b, m1. eexists. split; [done|].
  assert (Hb2 : blk m1 b (replicate (length xs) Raw ++ replicate (cap - length xs) Raw)).
  { rewrite <- replicate_add. by replace (length xs + (cap - length xs)) with cap by lia. }
  rewrite (fill_loop E (body b) m1 b xs _ _ Hb2);
    [|by rewrite replicate_length|apply forall_replicate_raw|].
  2:{ intros i x cs Hx. 
      pose proof (Hbody b (upd m1 b cs) i x cs) as HH. rewrite upd_upd in HH. apply HH; [|by eapply blk_upd|done].
      by eapply fresh_upd. }
  split; [done|]. split; [|by eapply fresh_upd].
  exists (replicate (cap - length xs) Raw). rewrite replicate_length. simpl.
  split_and!; try done; [by eapply blk_upd|apply forall_replicate_raw|lia].
Qed.

Lemma av_of_list_rep xs m : length xs <= cap -> exists v m', av_of_list E cap xs m = Ok (v, m') /\
  av_rep m' v xs /\ fresh m m' (av_blk v).
Proof.
  intros Hc. unfold av_of_list. rewrite decide_False by lia.
  destruct (build_rep m xs (fun b i m => let* x := get xs i in construct E m b i x) Hc)
    as (b & m1 & m' & -> & -> & Hr & Hf).
  { intros b m1 i x cs _ _ Hx. unfold get. by rewrite Hx. }
  cbn [bind]. eauto.
Qed.

Lemma av_copy_rep m v xs : av_rep m v xs -> exists c m', av_copy E cap v m = Ok (c, m') /\
  av_rep m' c xs /\ av_rep m' v xs /\ av_blk c <> av_blk v /\ fresh m m' (av_blk c).
Proof.
  intros Hr. assert (Hs : av_size v = length xs) by (by destruct Hr as (? & ? & _)).
  assert (Hc : length xs <= cap) by (destruct Hr as (? & _ & _ & _ & ?); lia).
  unfold av_copy. rewrite Hs.
  destruct (build_rep m xs (fun b i m => let* x := read m (av_blk v) i in construct E m b i x) Hc)
    as (b & m1 & m' & -> & -> & Hr' & Hf).
  { intros b m1 i x cs Hf Hb Hx. rewrite (av_rep_get (upd m1 b cs) v xs i x); [done| |done].
    apply (av_rep_mono m); [|done]. intros cs' Hcs'. destruct Hf as (_ & Ho & _).
    destruct (Ho _ _ Hcs') as [? ?]. by apply blk_upd_ne. }
  cbn [bind]. eexists _, _. split; [done|]. simpl. split; [done|].
  destruct Hr as (rest & _ & Hb & Hr). destruct (Hf) as (_ & Ho & _).
  destruct (Ho _ _ Hb) as [Hb' Hne]. split; [|split; [by apply not_eq_sym|done]].
  exists rest. done.
Qed.

(** Moving: the source's cells keep live, moved-from objects. *)
Lemma av_move_rep m v xs : av_rep m v xs -> exists c m' rest, av_move E cap v m = Ok (c, AV (av_blk v) 0, m') /\
  av_rep m' c xs /\ av_blk c <> av_blk v /\ leaks m' = leaks m /\
  (forall b cs, b <> av_blk v -> blk m b cs -> blk m' b cs) /\
  blk m' (av_blk v) ((Live <$> (mvd E <$> xs)) ++ rest) /\ Forall (vacant E) rest /\
  length xs + length rest = cap.
Proof.
  intros (rest & Hs & Hb & Hv & Hc). unfold av_move. rewrite Hs.
  destruct (alloc m cap) as [b m1] eqn:Ea.
  assert (Hb1 := alloc_blk _ _ _ _ Ea). destruct (alloc_fresh _ _ _ _ Ea) as (Hl & Ho & _).
  destruct (Ho _ _ Hb) as [Hbo Hne].
  assert (Hb2 : blk m1 b (replicate (length xs) Raw ++ replicate (length rest) Raw)).
  { rewrite <- replicate_add. by rewrite Hc. }
  rewrite (move_loop E _ m1 b (av_blk v) xs _ _ rest (not_eq_sym Hne) Hb2 Hbo);
    [|by rewrite replicate_length|apply forall_replicate_raw|done].
  cbn [bind]. eexists _, _, rest. split; [done|]. simpl. split_and!; try done.
  - exists (replicate (length rest) Raw). rewrite replicate_length. simpl. split_and!; try done.
    + eapply blk_upd. by apply blk_upd_ne; [apply not_eq_sym|].
    + apply forall_replicate_raw.
  - intros b' cs Hne' Hb'. destruct (Ho _ _ Hb') as [? ?]. by do 2 (apply blk_upd_ne; [done|]).
  - apply blk_upd_ne; [done|]. by eapply blk_upd.
Qed.

Lemma destroy_cells_rep m v xs : av_rep m v xs -> exists rest,
  destroy_cells E (av_blk v) (av_size v) m = Ok (upd m (av_blk v) rest) /\
  Forall (vacant E) rest /\ length rest = cap /\ exists cs, blk m (av_blk v) cs.
Proof.
  intros (rest & Hs & Hb & Hv & Hc). exists ((dead E <$> (Live <$> xs)) ++ rest).
  rewrite Hs. unfold destroy_cells. split; [by apply (destroy_loop E)|].
  split; [apply Forall_app; split; [apply dead_list_vacant|done]|].
  split; [rewrite app_length, !fmap_length; lia|]. eauto.
Qed.

Lemma av_copy_assign_rep m v w xs ys : av_rep m v xs -> av_rep m w ys -> av_blk v <> av_blk w ->
  exists cs, av_copy_assign E v w m = Ok (AV (av_blk v) (av_size w), upd m (av_blk v) cs) /\
    (exists cs0, blk m (av_blk v) cs0) /\
    av_rep (upd m (av_blk v) cs) (AV (av_blk v) (av_size w)) ys /\ av_rep (upd m (av_blk v) cs) w ys.
Proof.
  intros Hv Hw Hne. assert (Hsw : av_size w = length ys) by (by destruct Hw as (? & ? & _)).
  assert (Hcw : length ys <= cap) by (destruct Hw as (? & _ & _ & _ & ?); lia).
  destruct (destroy_cells_rep m v xs Hv) as (rest & Ed & Hvr & Hl & cs0 & Hb0).
  unfold av_copy_assign. rewrite Ed. cbn [bind]. rewrite Hsw.
  assert (Hb1 : blk (upd m (av_blk v) rest) (av_blk v) (take (length ys) rest ++ drop (length ys) rest)).
  { rewrite take_drop. by eapply blk_upd. }
  rewrite (fill_loop E _ _ (av_blk v) ys _ _ Hb1); [|rewrite take_length; lia|by apply Forall_take|].
  2:{ intros i y cs Hy. rewrite (av_rep_get _ w ys i y); [done| |done].
      apply (av_rep_mono m); [|done]. intros cs' Hcs'. rewrite upd_upd.
      by apply blk_upd_ne; [apply not_eq_sym|]. }
  cbn [bind]. rewrite upd_upd. eexists. split; [done|]. split; [eauto|]. split.
  - exists (drop (length ys) rest). simpl. rewrite drop_length.
    split_and!; try done; [by eapply blk_upd|by apply Forall_drop|lia].
  - apply (av_rep_mono m); [|done]. intros cs' Hcs'. by apply blk_upd_ne; [apply not_eq_sym|].
Qed.

Lemma av_move_assign_rep m v w xs ys : av_rep m v xs -> av_rep m w ys -> av_blk v <> av_blk w ->
  exists m' rest, av_move_assign E v w m = Ok (AV (av_blk v) (av_size w), AV (av_blk w) 0, m') /\
    av_rep m' (AV (av_blk v) (av_size w)) ys /\ leaks m' = leaks m /\
    blk m' (av_blk w) ((Live <$> (mvd E <$> ys)) ++ rest) /\ Forall (vacant E) rest /\
    length ys + length rest = cap.
Proof.
  intros Hv Hw Hne. destruct (destroy_cells_rep m v xs Hv) as (rv & Ed & Hvr & Hl & cs0 & Hb0).
  destruct Hw as (rest & Hs & Hb & Hvw & Hc). unfold av_move_assign. rewrite Ed. cbn [bind]. rewrite Hs.
  assert (Hb1 : blk (upd m (av_blk v) rv) (av_blk v) (take (length ys) rv ++ drop (length ys) rv)).
  { rewrite take_drop. by eapply blk_upd. }
  rewrite (move_loop E _ _ (av_blk v) (av_blk w) ys _ _ rest Hne Hb1);
    [|by apply blk_upd_ne; [apply not_eq_sym|]|rewrite take_length; lia|by apply Forall_take|done].
  cbn [bind]. eexists _, rest. split; [done|]. split_and!; try done.
  - exists (drop (length ys) rv). simpl. rewrite drop_length.
    split_and!; try done; [|by apply Forall_drop|lia].
    eapply blk_upd. apply blk_upd_ne; [done|]. by eapply blk_upd.
  - apply blk_upd_ne; [by apply not_eq_sym|]. eapply blk_upd. by apply blk_upd_ne; [apply not_eq_sym|].
Qed.

(** Releasing storage with [k] live class-type objects leaks them. *)
Lemma live_count_app (c1 c2 : list (cell A)) : live_count (c1 ++ c2) = live_count c1 + live_count c2.
Proof. unfold live_count. by rewrite List.filter_app, app_length. Qed.
Lemma live_count_live (l : list A) : live_count (Live <$> l) = length l.
Proof. unfold live_count. induction l as [|a l IH]; [done|].
  rewrite fmap_cons. cbn [List.filter is_live length]. by rewrite IH. Qed.
Lemma live_count_vacant rest : triv E = false -> Forall (vacant E) rest -> live_count rest = 0.
Proof.
  intros Ht H. apply live_count_raw. eapply Forall_impl; [exact H|]. intros c [?|?]; [done|congruence].
Qed.

Lemma av_destroy_moved m b (xs : list A) rest : triv E = false ->
  blk m b ((Live <$> xs) ++ rest) -> Forall (vacant E) rest ->
  exists m', av_destroy E (AV b 0) m = Ok m' /\ leaks m' = leaks m + length xs /\
   (forall b' cs, b' <> b -> blk m b' cs -> blk m' b' cs).
Proof.
  intros Ht Hb Hv. unfold av_destroy. simpl. unfold free. rewrite Hb, Ht.
  rewrite live_count_app, live_count_live, live_count_vacant by done.
  eexists. split; [done|]. simpl. split; [lia|].
  intros b' cs Hne Hb'. unfold blk; simpl. by rewrite list_lookup_insert_ne.
Qed.

Lemma av_destroy_rep m v xs : av_rep m v xs -> exists m', av_destroy E v m = Ok m' /\
  leaks m' = leaks m /\ S (allocations m') = allocations m.
Proof.
  intros Hr. destruct (destroy_cells_rep m v xs Hr) as (rest & Ed & Hvr & _ & cs0 & Hb0).
  unfold av_destroy. rewrite Ed. cbn [bind].
  assert (Hb2 : blk (upd m (av_blk v) rest) (av_blk v) rest) by (by eapply blk_upd).
  rewrite (free_ok E _ _ rest Hb2).
  2:{ destruct (triv E) eqn:Ht; [by left|right].
      eapply Forall_impl; [exact Hvr|]. intros c [?|?]; [done|congruence]. }
  eexists. split; [done|]. split; [done|].
  rewrite (allocations_free _ _ _ _ Hb2). by eapply allocations_upd.
Qed.

(** ** Operations *)
Lemma av_push_rep m v xs a : av_rep m v xs -> length xs < cap -> exists cs',
  av_push E cap v a m = Ok (AV (av_blk v) (av_size v + 1), upd m (av_blk v) cs') /\
  av_rep (upd m (av_blk v) cs') (AV (av_blk v) (av_size v + 1)) (xs ++ [a]).
Proof.
  intros (rest & Hs & Hb & Hv & Hc) Hlt. unfold av_push. rewrite decide_False by lia.
  destruct rest as [|c rest]; [simpl in *; lia|]. apply Forall_cons in Hv as [Hvc Hv].
  rewrite (construct_vacant E m _ _ _ c a Hb); [|..|done].
  2:{ rewrite lookup_app_r by (rewrite fmap_length; lia). rewrite fmap_length, Hs.
      by rewrite Nat.sub_diag. }
  cbn [bind]. rewrite insert_boundary by (by rewrite fmap_length).
  eexists. split; [done|]. exists rest. simpl in *. rewrite fmap_app, app_length. simpl.
  split_and!; try done; [lia|by eapply blk_upd|lia].
Qed.

Lemma av_pop_rep m v xs a : av_rep m v (xs ++ [a]) -> exists cs',
  av_pop E v m = Ok (AV (av_blk v) (av_size v - 1), upd m (av_blk v) cs') /\
  av_rep (upd m (av_blk v) cs') (AV (av_blk v) (av_size v - 1)) xs.
Proof.
  intros (rest & Hs & Hb & Hv & Hc). rewrite app_length in Hs, Hc. simpl in Hs, Hc.
  unfold av_pop. rewrite decide_False by lia.
  replace (av_size v - 1) with (length xs) by lia.
  rewrite fmap_app, <- (assoc_L (++)) in Hb. simpl in Hb.
  rewrite (destroy_live E m _ _ (length xs) a Hb).
  2:{ rewrite lookup_app_r by (rewrite fmap_length; lia). rewrite fmap_length. by rewrite Nat.sub_diag. }
  cbn [bind]. rewrite insert_boundary by (by rewrite fmap_length).
  eexists. split; [done|]. exists (dead E (Live a) :: rest). simpl.
  rewrite <- (assoc_L (++)). simpl. split_and!; try done; [by eapply blk_upd| |lia].
  constructor; [apply dead_vacant|done].
Qed.

Lemma av_clear_rep m v xs : av_rep m v xs -> exists cs',
  av_clear E v m = Ok (AV (av_blk v) 0, upd m (av_blk v) cs') /\
  av_rep (upd m (av_blk v) cs') (AV (av_blk v) 0) [].
Proof.
  intros Hr. destruct (destroy_cells_rep m v xs Hr) as (rest & Ed & Hvr & Hl & cs0 & Hb0).
  unfold av_clear. rewrite Ed. cbn [bind]. eexists. split; [done|]. exists rest. simpl.
  split_and!; try done. by eapply blk_upd.
Qed.

Lemma av_set_rep m v xs i a : av_rep m v xs -> i < length xs -> exists cs',
  av_set E v i a m = Ok (upd m (av_blk v) cs') /\ av_rep (upd m (av_blk v) cs') v (<[i := a]> xs).
Proof.
  intros (rest & Hs & Hb & Hv & Hc) Hi. destruct (lookup_lt_is_Some_2 xs i Hi) as [x Hx].
  unfold av_set. rewrite (assign_live E m _ _ i a x Hb) by (by apply lookup_live_app).
  eexists. split; [done|]. rewrite (insert_app_l (Live <$> xs)) by (by rewrite fmap_length).
  rewrite <- list_fmap_insert. exists rest. rewrite insert_length.
  split_and!; try done. by eapply blk_upd.
Qed.

(** After the shift there is a hole at [i]: vacant, and for a trivial type a copy of what was
    there (or the first free cell). *)
Lemma av_shift_rep m b xs c0 rest i : blk m b ((Live <$> xs) ++ c0 :: rest) -> vacant E c0 ->
  i <= length xs -> exists c, vacant E c /\
    av_shift E b (length xs) i m = Ok (upd m b ((Live <$> take i xs) ++ c :: (Live <$> drop i xs) ++ rest)).
Proof.
  intros Hb Hv0 Hi.
  assert (HH : wp (av_shift E b (length xs) i m) (fun m' => exists c, vacant E c /\
     m' = upd m b ((Live <$> take i xs) ++ c :: (Live <$> drop i xs) ++ rest))).
  { unfold av_shift. apply (wp_for_down (fun k m' => exists c, vacant E c /\ m' =
      upd m b ((Live <$> take k xs) ++ c :: (Live <$> drop k xs) ++ rest))); [done|..|done].
    - exists c0. split; [done|]. rewrite firstn_all, drop_ge by lia. simpl. by rewrite upd_same.
    - intros k m' Hk1 Hk2 (c & Hvc & ->).
      destruct (lookup_lt_is_Some_2 xs k Hk2) as [x Hx].
      erewrite take_S_r by done. rewrite fmap_app, <- (assoc_L (++)). simpl.
      erewrite (move_out_live E _ b _ k x).
      2:{ by eapply blk_upd. }
      2:{ rewrite lookup_app_r by (rewrite fmap_length, take_length; lia).
          rewrite fmap_length, take_length. by replace (k - k `min` length xs) with 0 by lia. }
      cbn [bind]. rewrite upd_upd.
      rewrite insert_boundary by (rewrite fmap_length, take_length; lia).
      erewrite (construct_vacant E _ b _ (S k) c); [|by eapply blk_upd| |done].
      2:{ rewrite lookup_app_r by (rewrite app_length, fmap_length, take_length; simpl; lia).
          rewrite app_length, fmap_length, take_length; simpl.
          by replace (S k - (k `min` length xs + 1)) with 0 by lia. }
      cbn [bind]. rewrite upd_upd.
      rewrite insert_boundary by (rewrite app_length, fmap_length, take_length; simpl; lia).
      rewrite <- !(assoc_L (++)). simpl.
      erewrite (destroy_live E _ b _ k (mvd E x)); [|by eapply blk_upd|].
      2:{ rewrite lookup_app_r by (rewrite fmap_length, take_length; lia).
          rewrite fmap_length, take_length. by replace (k - k `min` length xs) with 0 by lia. }
      apply wp_ok. exists (dead E (Live (mvd E x))). split; [apply dead_vacant|].
      rewrite upd_upd. f_equal. rewrite insert_boundary by (rewrite fmap_length, take_length; lia).
      rewrite (drop_S xs x k Hx). by rewrite <- (assoc_L (++)). }
  destruct HH as (m' & -> & c & Hc & ->). eauto.
Qed.

Lemma av_insert_rep m v xs i a : av_rep m v xs -> i <= length xs -> length xs < cap -> exists cs',
  av_insert E cap v i a m = Ok (AV (av_blk v) (av_size v + 1), upd m (av_blk v) cs') /\
  av_rep (upd m (av_blk v) cs') (AV (av_blk v) (av_size v + 1)) (take i xs ++ a :: drop i xs).
Proof.
  intros (rest & Hs & Hb & Hv & Hc) Hi Hlt. unfold av_insert. rewrite decide_False by lia.
  destruct rest as [|c0 rest]; [simpl in *; lia|]. apply Forall_cons in Hv as [Hvc Hv].
  rewrite Hs. destruct (av_shift_rep m (av_blk v) xs c0 rest i Hb Hvc Hi) as (c & Hc' & ->). cbn [bind].
  erewrite (construct_vacant E _ (av_blk v) _ i c); [|by eapply blk_upd| |done].
  2:{ rewrite lookup_app_r by (rewrite fmap_length, take_length; lia).
      rewrite fmap_length, take_length. by replace (i - i `min` length xs) with 0 by lia. }
  cbn [bind]. rewrite upd_upd. rewrite insert_boundary by (rewrite fmap_length, take_length; lia).
  eexists. split; [done|]. exists rest. simpl in *.
  rewrite fmap_app, fmap_cons, app_length. simpl. rewrite take_length, drop_length.
  split_and!; try done; [lia| |lia].
  replace ((((Live <$> take i xs) ++ Live a :: (Live <$> drop i xs)) ++ rest))
    with ((((Live <$> take i xs) ++ [Live a]) ++ (Live <$> drop i xs) ++ rest)).
  - by eapply blk_upd.
  - by rewrite <- !(assoc_L (++)).
Qed.

Lemma av_erase_rep m v xs i : av_rep m v xs -> i < length xs -> exists cs',
  av_erase E v i m = Ok (AV (av_blk v) (av_size v - 1), upd m (av_blk v) cs') /\
  av_rep (upd m (av_blk v) cs') (AV (av_blk v) (av_size v - 1)) (take i xs ++ drop (S i) xs).
Proof.
  intros (rest & Hs & Hb & Hv & Hc) Hi. unfold av_erase. rewrite decide_False by lia.
  set (b := av_blk v) in *.
  destruct (lookup_lt_is_Some_2 xs i Hi) as [x Hx].
  set (ys := take i xs ++ drop (S i) xs).
  assert (Hyl : length ys = length xs - 1).
  { unfold ys. rewrite app_length, take_length, drop_length. lia. }
  assert (Htk : take i ys = take i xs).
  { unfold ys. rewrite take_app_le by (rewrite take_length; lia). by rewrite take_take, Nat.min_id. }
  assert (Hyk : forall k y, i <= k -> xs !! S k = Some y -> ys !! k = Some y).
  { intros k y Hk Hy. unfold ys. rewrite lookup_app_r by (rewrite take_length; lia).
    rewrite take_length, lookup_drop. rewrite <- Hy. f_equal. lia. }
  rewrite (destroy_live E m b _ i x Hb) by (by apply lookup_live_app). cbn [bind].
  assert (Hsplit : (Live <$> xs) ++ rest = (Live <$> take i xs) ++ Live x :: (Live <$> drop (S i) xs) ++ rest).
  { rewrite <- (take_drop_middle xs i x Hx) at 1. by rewrite fmap_app, fmap_cons, <- (assoc_L (++)). }
  rewrite Hsplit.
  rewrite insert_boundary by (rewrite fmap_length, take_length; lia).
  rewrite <- (assoc_L (++)). simpl app.
  assert (HH : wp (for_up (av_size v - 1 - i) i (fun i m =>
      let* (x, m) := move_out E m b (i + 1) in
      let* m := construct E m b i x in
      destroy E m b (i + 1))
      (upd m b ((Live <$> take i xs) ++ dead E (Live x) :: (Live <$> drop (S i) xs) ++ rest)))
      (fun m' => exists c, vacant E c /\ m' = upd m b ((Live <$> ys) ++ c :: rest))).
  { apply (wp_for_up (fun k m' => exists c, vacant E c /\ m' =
      upd m b ((Live <$> take k ys) ++ c :: (Live <$> drop (S k) xs) ++ rest))).
    - exists (dead E (Live x)). split; [apply dead_vacant|]. by rewrite Htk.
    - intros k m' Hk1 Hk2 (c & Hvc & ->).
      destruct (lookup_lt_is_Some_2 xs (S k)) as [y Hy]; [lia|].
      assert (Hlk : length (take k ys) = k) by (rewrite take_length; lia).
      erewrite (move_out_live E _ b _ (k + 1) y).
      2:{ by eapply blk_upd. }
      2:{ rewrite lookup_app_r by (rewrite fmap_length; lia).
          rewrite fmap_length, Hlk. replace (k + 1 - k) with 1 by lia.
          by rewrite (drop_S xs y (S k) Hy). }
      cbn [bind]. rewrite upd_upd. rewrite (drop_S xs y (S k) Hy).
      rewrite insert_app_r_alt by (rewrite fmap_length; lia).
      rewrite fmap_length, Hlk. replace (k + 1 - k) with 1 by lia. simpl.
      erewrite (construct_vacant E _ b _ k c); [|by eapply blk_upd| |done].
      2:{ rewrite lookup_app_r by (rewrite fmap_length; lia). rewrite fmap_length, Hlk.
          by rewrite Nat.sub_diag. }
      cbn [bind]. rewrite upd_upd. rewrite insert_boundary by (rewrite fmap_length; lia).
      erewrite (destroy_live E _ b _ (k + 1) (mvd E y)); [|by eapply blk_upd|].
      2:{ rewrite lookup_app_r by (rewrite app_length, fmap_length; simpl; lia).
          rewrite app_length, fmap_length, Hlk. simpl. by replace (k + 1 - (k + 1)) with 0 by lia. }
      apply wp_ok. exists (dead E (Live (mvd E y))). split; [apply dead_vacant|].
      rewrite upd_upd. f_equal.
      rewrite insert_boundary by (rewrite app_length, fmap_length; simpl; lia).
      erewrite (take_S_r ys k y) by (by apply Hyk). rewrite fmap_app.
      by rewrite <- !(assoc_L (++)).
    - intros m' (c & Hvc & ->). exists c. split; [done|]. f_equal.
      replace (i + (av_size v - 1 - i)) with (length ys) by lia.
      rewrite firstn_all. by rewrite (drop_ge xs) by lia. }
  destruct HH as (m' & -> & c & Hvc & ->). cbn [bind]. eexists. split; [done|].
  exists (c :: rest). simpl. split_and!; try done; [lia|by eapply blk_upd|by constructor|lia].
Qed.

(** ** Histories *)
Lemma av_step_rep o m v xs : av_rep m v xs ->
  match blist_op cap o xs with
  | LOk ys => exists v' cs', av_step E cap o v m = Ok (v', upd m (av_blk v) cs') /\
      av_blk v' = av_blk v /\ av_rep (upd m (av_blk v) cs') v' ys
  | LThrow => av_step E cap o v m = Throw
  | LUndef => True
  end.
Proof.
  intros Hr. assert (Hs : av_size v = length xs) by (by destruct Hr as (? & ? & _)).
  assert (Hle : length xs <= cap) by (destruct Hr as (? & _ & _ & _ & ?); lia).
  destruct o as [a| |i a|i| |i a]; simpl.
  - case_decide as Hi.
    + destruct (av_push_rep m v xs a Hr Hi) as (cs & -> & ?). eauto.
    + unfold av_push. by rewrite decide_True by lia.
  - destruct xs as [|x xs'].
    { unfold av_pop. by rewrite decide_True. }
    assert (Hne : x :: xs' <> []) by done. revert Hr. rewrite (app_removelast_last x Hne) at 1.
    intros Hr. destruct (av_pop_rep _ _ _ _ Hr) as (cs & -> & ?). eauto.
  - case_decide as Hi.
    + destruct (av_insert_rep m v xs i a Hr) as (cs & -> & ?); [lia|lia|]. eauto.
    + unfold av_insert. by rewrite decide_True by lia.
  - case_decide as Hi.
    + destruct (av_erase_rep m v xs i Hr Hi) as (cs & -> & ?). eauto.
    + unfold av_erase. by rewrite decide_True by lia.
  - destruct (av_clear_rep m v xs Hr) as (cs & -> & ?). eauto.
  - case_decide as Hi; [|done].
    destruct (av_set_rep m v xs i a Hr Hi) as (cs & -> & ?). simpl. eauto.
Qed.

Lemma av_run_rep ops : forall m v xs ts ys, av_rep m v xs -> blist_run cap ops xs = Some (ts, ys) ->
  exists v' cs', av_run E cap ops v m = Ok (ts, v', upd m (av_blk v) cs') /\
    av_blk v' = av_blk v /\ av_rep (upd m (av_blk v) cs') v' ys.
Proof.
  induction ops as [|o ops IH]; intros m v xs ts ys Hr Hl; simpl in *.
  - injection Hl as <- <-. destruct (Hr) as (rest & _ & Hb & _).
    exists v, ((Live <$> xs) ++ rest). by rewrite upd_same.
  - pose proof (av_step_rep o m v xs Hr) as Hst.
    destruct (blist_op cap o xs) as [l'| |] eqn:Eo; [..|done].
    + destruct Hst as (v1 & cs1 & -> & Hb1 & Hr1).
      destruct (blist_run cap ops l') as [[ts' f]|] eqn:El; [|done]. injection Hl as <- <-.
      destruct (IH _ v1 l' ts' f Hr1 El) as (v2 & cs2 & -> & Hb2 & Hr2).
      rewrite Hb1, upd_upd in *. simpl. exists v2, cs2. split; [done|]. split; [congruence|done].
    + rewrite Hst. destruct (blist_run cap ops xs) as [[ts' f]|] eqn:El; [|done]. injection Hl as <- <-.
      destruct (IH m v xs ts' f Hr El) as (v2 & cs2 & -> & Hb2 & Hr2). simpl. eauto.
Qed.

Lemma av_built_rep init m0 : length (init_list init) <= cap -> exists v m,
  av_built E cap init m0 = Ok (v, m) /\ av_rep m v (init_list init) /\ fresh m0 m (av_blk v).
Proof.
  intros Hc. destruct init as [xs|]; simpl in *.
  - by apply av_of_list_rep.
  - destruct (av_new_rep m0) as (v & m & -> & ? & ?). eauto.
Qed.

Lemma av_after_rep init ops m0 ts ys : length (init_list init) <= cap ->
  blist_run cap ops (init_list init) = Some (ts, ys) ->
  exists v m, av_after E cap init ops m0 ts v m /\ av_rep m v ys /\ fresh m0 m (av_blk v).
Proof.
  intros Hc Hl. destruct (av_built_rep init m0 Hc) as (v0 & m1 & Eq & Hr & Hf).
  destruct (av_run_rep ops m1 v0 _ ts ys Hr Hl) as (v & cs & Er & Hb & Hr').
  exists v, (upd m1 (av_blk v0) cs). split; [by exists v0, m1|]. split; [done|].
  rewrite Hb. destruct Hr as (rest & _ & Hbk & _). by eapply fresh_upd.
Qed.

Lemma av_after_inv init ops m0 ts ys ts' v m : length (init_list init) <= cap ->
  blist_run cap ops (init_list init) = Some (ts, ys) -> av_after E cap init ops m0 ts' v m ->
  ts' = ts /\ av_rep m v ys /\ fresh m0 m (av_blk v).
Proof.
  intros Hc Hl Ha. destruct (av_after_rep init ops m0 ts ys Hc Hl) as (v2 & m2 & Ha2 & Hr & Hfr).
  destruct Ha as (w0 & n0 & E1 & E2), Ha2 as (w1 & n1 & F1 & F2).
  rewrite E1 in F1. injection F1 as <- <-. rewrite E2 in F2. by injection F2 as -> -> ->.
Qed.

(** insert of an own element that lies before the insertion point. *)
Lemma av_insert_own_rep m v xs i j x : av_rep m v xs -> i <= length xs -> length xs < cap ->
  xs !! j = Some x -> j < i -> av_insert_own E cap v i j m = av_insert E cap v i x m.
Proof.
  intros (rest & Hs & Hb & Hv & Hc) Hi Hlt Hx Hj. unfold av_insert_own, av_insert.
  rewrite !decide_False by lia.
  destruct rest as [|c0 rest]; [simpl in *; lia|]. apply Forall_cons in Hv as [Hvc Hv].
  rewrite Hs. destruct (av_shift_rep m (av_blk v) xs c0 rest i Hb Hvc Hi) as (c & Hc' & ->). cbn [bind].
  erewrite (read_ok _ (av_blk v) _ j x); [done|by eapply blk_upd|].
  apply lookup_live_app. by rewrite lookup_take.
Qed.

(** Conversion from a full source. *)
Lemma av_rep_eq m v w xs ys ne : (forall x y, ne x y = false <-> x = y) ->
  av_rep m v xs -> av_rep m w ys -> exists r, av_eq ne v w m = Ok r /\ (r = true <-> xs = ys).
Proof.
  intros Hne Hv Hw. assert (Hs : av_size v = length xs) by (by destruct Hv as (? & ? & _)).
  assert (Hsw : av_size w = length ys) by (by destruct Hw as (? & ? & _)).
  unfold av_eq. case_decide as Hsz.
  { exists false. split; [done|]. split; [done|]. intros ->. congruence. }
  apply arr_eq_ok; [done|done|lia|..]; intros i x Hx; by eapply av_rep_get.
Qed.
End arrvec.

(** Converting a full ArrVec<A,k> to ArrVec<A,cap>. *)
Lemma av_convert_full cap k m v xs : av_rep k m v xs -> length xs = k -> k <= cap ->
  exists c m', av_convert E cap k v m = Ok (c, m') /\ av_rep cap m' c xs /\ av_rep k m' v xs.
Proof.
  intros Hr Hk Hc. unfold av_convert. rewrite <- Hk.
  assert (Hc' : length xs <= cap) by lia.
  destruct (build_rep cap m xs (fun b i m => let* x := read m (av_blk v) i in construct E m b i x) Hc')
    as (b & m1 & m' & -> & -> & Hr' & Hf).
  { intros b m1 i x cs Hf Hb Hx. rewrite (av_rep_get k (upd m1 b cs) v xs i x); [done| |done].
    apply (av_rep_mono k m); [|done]. intros cs' Hcs'. destruct Hf as (_ & Ho & _).
    destruct (Ho _ _ Hcs') as [? ?]. by apply blk_upd_ne. }
  cbn [bind]. eexists _, _. split; [done|]. split; [done|].
  rewrite Hk. apply (av_rep_mono k m); [|done]. intros cs' Hcs'. destruct Hf as (_ & Ho & _). by apply Ho.
Qed.

(** Converting one with free cells reads past its size: for class types always undefined. *)
Lemma av_convert_class cap k m v xs : triv E = false -> av_rep k m v xs -> length xs < k -> k <= cap ->
  av_convert E cap k v m = UB Uninit.
Proof.
  intros Ht (rest & Hs & Hb & Hv & Hc) Hk Hle. unfold av_convert.
  destruct (alloc m cap) as [b m1] eqn:Ea.
  assert (Hb1 := alloc_blk _ _ _ _ Ea). destruct (alloc_old _ _ _ _ _ _ Ea Hb) as [Hbo Hne].
  assert (Hb2 : blk m1 b (replicate (length xs) Raw ++ replicate (cap - length xs) Raw)).
  { rewrite <- replicate_add. by replace (length xs + (cap - length xs)) with cap by lia. }
  destruct rest as [|c rest]; [simpl in *; lia|]. apply Forall_cons in Hv as [[->|?] _]; [|congruence].
  assert (Hsplit : forall (body : nat -> mem A -> res (mem A)) n1 n2 i s,
     for_up (n1 + n2) i body s = let* s' := for_up n1 i body s in for_up n2 (i + n1) body s').
  { clear. intros body n1. induction n1 as [|n1 IH]; intros n2 i s; simpl.
    - by rewrite Nat.add_0_r.
    - destruct (body i s); simpl; try done. rewrite IH. by replace (S i + n1) with (i + S n1) by lia. }
  replace k with (length xs + S (k - length xs - 1)) at 1 by lia. rewrite Hsplit.
  rewrite (fill_loop E _ m1 b xs _ _ Hb2); [|by rewrite replicate_length|apply forall_replicate_raw|].
  2:{ intros i x cs Hx. rewrite (read_ok _ (av_blk v) ((Live <$> xs) ++ Raw :: rest) i x); [done| |by apply lookup_live_app].
      by apply blk_upd_ne. }
  cbn [bind for_up Nat.add]. unfold read.
  rewrite (with_block_blk _ (av_blk v) ((Live <$> xs) ++ Raw :: rest)) by (by apply blk_upd_ne).
  rewrite lookup_app_r by (rewrite fmap_length; lia). rewrite fmap_length. by rewrite Nat.sub_diag.
Qed.

(** ** Array *)
Section array.
Context (n : nat).

Definition arr_rep m b xs : Prop := blk m b (Live <$> xs) /\ length xs = n.

Lemma arr_rep_get m b xs i x : arr_rep m b xs -> xs !! i = Some x -> read m b i = Ok x.
Proof. intros [Hb _] Hx. eapply read_ok; [done|]. by rewrite list_lookup_fmap, Hx. Qed.

Lemma arr_rep_reads m b xs : arr_rep m b xs -> arr_reads n b m xs.
Proof.
  intros Hr. split; [by destruct Hr|]. split.
  - intros i x Hx. by eapply arr_rep_get.
  - unfold arr_iter. apply iter_ok; [by destruct Hr|]. intros i x Hx. by eapply arr_rep_get.
Qed.

Lemma arr_build m xs (body : nat -> nat -> mem A -> res (mem A)) : length xs = n ->
  (forall b m1 i x cs, fresh m m1 b -> blk m1 b cs -> xs !! i = Some x ->
      body b i (upd m1 b cs) = construct E (upd m1 b cs) b i x) ->
  exists b m1 m', alloc m n = (b, m1) /\ for_up n 0 (body b) m1 = Ok m' /\
    arr_rep m' b xs /\ fresh m m' b.
Proof.
  intros Hn Hbody. destruct (build_rep n m xs body) as (b & m1 & m' & Ea & Ef & Hr & Hf); [lia|done|].
  exists b, m1, m'. rewrite Hn in Ef. split_and!; try done.
  destruct Hr as (rest & _ & Hb & _ & Hl). destruct rest; [|simpl in *; lia].
  rewrite app_nil_r in Hb. done.
Qed.

Lemma arr_new_rep d m : exists b m', arr_new E n d m = Ok (b, m') /\
  arr_rep m' b (replicate n d) /\ fresh m m' b.
Proof.
  unfold arr_new.
  destruct (arr_build m (replicate n d) (fun b i m => construct E m b i d)) as (b & m1 & m' & -> & -> & Hr & Hf).
  - apply replicate_length.
  - intros b m1 i x cs _ _ Hx. apply lookup_replicate in Hx as [-> _]. done.
  - cbn [bind]. eauto.
Qed.

Lemma arr_of_list_rep xs m : length xs = n -> exists b m', arr_of_list E n xs m = Ok (b, m') /\
  arr_rep m' b xs /\ fresh m m' b.
Proof.
  intros Hn. unfold arr_of_list. rewrite decide_False by lia. rewrite Hn.
  destruct (arr_build m xs (fun b i m => let* x := get xs i in construct E m b i x)) as (b & m1 & m' & -> & -> & Hr & Hf).
  - done.
  - intros b m1 i x cs _ _ Hx. unfold get. by rewrite Hx.
  - cbn [bind]. eauto.
Qed.

Lemma arr_copy_rep m bo xs : arr_rep m bo xs -> exists b m', arr_copy E n bo m = Ok (b, m') /\
  arr_rep m' b xs /\ arr_rep m' bo xs /\ b <> bo /\ fresh m m' b.
Proof.
  intros Hr. assert (Hn : length xs = n) by (by destruct Hr). unfold arr_copy.
  destruct (arr_build m xs (fun b i m => let* x := read m bo i in construct E m b i x)) as (b & m1 & m' & -> & -> & Hr' & Hf).
  - done.
  - intros b m1 i x cs (_ & Ho & _) Hb Hx. rewrite (arr_rep_get (upd m1 b cs) bo xs i x); [done| |done].
    split; [|done]. destruct Hr as [Hbo _]. destruct (Ho _ _ Hbo). by apply blk_upd_ne.
  - cbn [bind]. destruct Hr as [Hbo _]. destruct (Hf) as (_ & Ho & _). destruct (Ho _ _ Hbo).
    eexists _, _. split; [done|]. split; [done|]. split; [done|]. split; [by apply not_eq_sym|done].
Qed.

Lemma arr_move_rep m bo xs : arr_rep m bo xs -> exists b m', arr_move E n bo m = Ok (b, m') /\
  arr_rep m' b xs /\ arr_rep m' bo (mvd E <$> xs) /\ b <> bo /\ leaks m' = leaks m.
Proof.
  intros [Hbo Hn]. unfold arr_move. destruct (alloc m n) as [b m1] eqn:Ea.
  assert (Hb1 := alloc_blk _ _ _ _ Ea). destruct (alloc_fresh _ _ _ _ Ea) as (Hl & Ho & _).
  destruct (Ho _ _ Hbo) as [Hbo1 Hne].
  rewrite <- (app_nil_r (Live <$> xs)) in Hbo1. rewrite <- (app_nil_r (replicate n Raw)) in Hb1.
  rewrite <- Hn.
  rewrite (move_loop E _ m1 b bo xs _ _ [] (not_eq_sym Hne) Hb1 Hbo1);
    [|by rewrite replicate_length|apply forall_replicate_raw|done].
  cbn [bind]. rewrite !app_nil_r. eexists _, _. split; [done|].
  split. { split; [|done]. eapply blk_upd. by apply blk_upd_ne; [apply not_eq_sym|]. }
  split. { split; [|by rewrite fmap_length]. apply blk_upd_ne; [done|]. by eapply blk_upd. }
  split; [by apply not_eq_sym|done].
Qed.

(** The assignment loops: destroy, then construct, cell by cell. *)
Lemma replace_loop m b (xs ys : list A) (src : nat -> mem A -> res (A * mem A)) (Q : nat -> mem A -> Prop) m0' :
  arr_rep m b xs -> length ys = n -> Q 0 m ->
  (forall i m' y, i < n -> ys !! i = Some y -> Q i m' -> forall cs, blk m' b cs ->
     length cs = n -> (exists c, cs !! i = Some c /\ vacant E c) ->
     exists m'', src i m' = Ok (y, m'') /\ blk m'' b cs /\ leaks m'' = leaks m' /\
       forall cs', Q (S i) (upd m'' b cs')) ->
  (forall i m' cs, Q i m' -> Q i (upd m' b cs)) -> m0' = m ->
  exists m', for_up n 0 (fun i m =>
      let* m := destroy E m b i in let* (x, m) := src i m in construct E m b i x) m = Ok m' /\
    arr_rep m' b ys /\ Q n m' /\ leaks m' = leaks m.
Proof.
  intros [Hb Hn] Hy HQ Hsrc HQu _.
  apply (wp_for_up (fun i m' => Q i m' /\ blk m' b (Live <$> (take i ys ++ drop i xs)) /\ leaks m' = leaks m)).
  - rewrite take_0, drop_0. done.
  - intros k m' _ Hk (HQk & Hbk & Hl). simpl in Hk.
    destruct (lookup_lt_is_Some_2 xs k) as [x Hx]; [lia|].
    destruct (lookup_lt_is_Some_2 ys k) as [y Hyk]; [lia|].
    assert (Hlen : length (take k ys ++ drop k xs) = n).
    { rewrite app_length, take_length, drop_length. lia. }
    rewrite (destroy_live E m' b _ k x Hbk).
    2:{ rewrite list_lookup_fmap, lookup_app_r by (rewrite take_length; lia).
        rewrite take_length, lookup_drop. replace (k + (k - k `min` length ys)) with k by lia. by rewrite Hx. }
    cbn [bind]. set (cs := <[k := dead E (Live x)]> (Live <$> (take k ys ++ drop k xs))).
    assert (Hkc : cs !! k = Some (dead E (Live x))).
    { apply list_lookup_insert. rewrite fmap_length. lia. }
    destruct (Hsrc k (upd m' b cs) y Hk Hyk (HQu _ _ _ HQk) cs) as (m2 & -> & Hb2 & Hl2 & HQ2).
    + by eapply blk_upd.
    + unfold cs. by rewrite insert_length, fmap_length.
    + eexists. split; [exact Hkc|apply dead_vacant].
    + cbn [bind]. rewrite (construct_vacant E m2 b cs k _ y Hb2 Hkc) by apply dead_vacant.
      apply wp_ok. split; [apply HQ2|]. split; [|by rewrite leaks_upd, Hl2, leaks_upd].
      replace (Live <$> (take (S k) ys ++ drop (S k) xs)) with (<[k := Live y]> cs); [by eapply blk_upd|].
      unfold cs. rewrite list_insert_insert. rewrite (drop_S xs x k Hx).
      erewrite take_S_r by done. rewrite !fmap_app, fmap_cons.
      rewrite insert_boundary by (rewrite fmap_length, take_length; lia). done.
  - intros m' (HQn & Hbn & Hl). simpl in *. split; [|done]. split; [|done].
    rewrite take_ge, drop_ge, app_nil_r in Hbn by lia. done.
Qed.

Lemma arr_copy_assign_rep m b bo xs ys : arr_rep m b xs -> arr_rep m bo ys -> b <> bo ->
  exists m', arr_copy_assign E n b bo m = Ok m' /\ arr_rep m' b ys /\ arr_rep m' bo ys /\ leaks m' = leaks m.
Proof.
  intros Hx Hy Hne.
  assert (Hyl : length ys = n) by (by destruct Hy).
  destruct (replace_loop m b xs ys (fun i m => let* x := read m bo i in Ok (x, m))
    (fun _ m' => arr_rep m' bo ys) m Hx Hyl Hy) as (m' & Eq & Hr & HQ & Hl).
  - intros i m' y Hi Hyi HQ cs Hbc _ _. exists m'.
    rewrite (arr_rep_get m' bo ys i y HQ Hyi). split; [done|]. split; [done|]. split; [done|].
    intros cs'. destruct HQ as [? ?]. split; [|done]. by apply blk_upd_ne; [apply not_eq_sym|].
  - intros i m' cs [? ?]. split; [|done]. by apply blk_upd_ne; [apply not_eq_sym|].
  - done.
  - exists m'. split; [|done]. unfold arr_copy_assign. rewrite <- Eq.
    assert (Hext : forall k i (s : mem A), for_up k i (fun i m =>
        let* m := destroy E m b i in let* x := read m bo i in construct E m b i x) s =
      for_up k i (fun i m => let* m := destroy E m b i in
        let* (x, m) := (let* x := read m bo i in Ok (x, m)) in construct E m b i x) s).
    { clear. induction k as [|k IH]; intros i s; [done|]. cbn [for_up].
      destruct (destroy E s b i) as [s1| | |]; try done. cbn [bind].
      destruct (read s1 bo i) as [x| | |]; try done. cbn [bind].
      destruct (construct E s1 b i x); try done. cbn [bind]. apply IH. }
    apply Hext.
Qed.

Lemma arr_move_assign_rep m b bo xs ys : arr_rep m b xs -> arr_rep m bo ys -> b <> bo ->
  exists m', arr_move_assign E n b bo m = Ok m' /\ arr_rep m' b ys /\
    arr_rep m' bo (mvd E <$> ys) /\ leaks m' = leaks m.
Proof.
  intros Hx Hy Hne. assert (Hyl : length ys = n) by (by destruct Hy).
  destruct (replace_loop m b xs ys (fun i m => move_out E m bo i)
    (fun i m' => arr_rep m' bo ((mvd E <$> take i ys) ++ drop i ys)) m Hx Hyl) as (m' & Eq & Hr & HQ & Hl).
  - simpl. by rewrite drop_0.
  - intros i m' y Hi Hyi [Hbo Hlo] cs Hbc _ _.
    eexists. rewrite (move_out_live E m' bo _ i y Hbo).
    2:{ rewrite list_lookup_fmap, lookup_app_r by (rewrite fmap_length, take_length; lia).
        rewrite fmap_length, take_length, lookup_drop.
        replace (i + (i - i `min` length ys)) with i by lia. by rewrite Hyi. }
    split; [done|]. split; [by apply blk_upd_ne|]. split; [done|].
    intros cs'. split.
    + apply blk_upd_ne; [by apply not_eq_sym|].
      replace (Live <$> ((mvd E <$> take (S i) ys) ++ drop (S i) ys)) with
        (<[i := Live (mvd E y)]> (Live <$> ((mvd E <$> take i ys) ++ drop i ys))); [by eapply blk_upd|].
      rewrite (drop_S ys y i Hyi). erewrite take_S_r by done. rewrite !fmap_app, fmap_cons.
      rewrite insert_boundary by (rewrite !fmap_length, take_length; lia). done.
    + rewrite app_length, fmap_length, take_length, drop_length. lia.
  - intros i m' cs [? ?]. split; [|done]. by apply blk_upd_ne; [apply not_eq_sym|].
  - done.
  - exists m'. split; [done|]. split; [done|]. split; [|done].
    rewrite take_ge, drop_ge, app_nil_r in HQ by lia. done.
Qed.

Lemma arr_destroy_rep m b xs : arr_rep m b xs -> exists m', arr_destroy E n b m = Ok m' /\
  leaks m' = leaks m /\ S (allocations m') = allocations m.
Proof.
  intros [Hb Hn]. destruct (av_destroy_rep n m (AV b n) xs) as (m' & Eq & H).
  { exists []. rewrite app_nil_r. simpl. split_and!; try done; lia. }
  exists m'. done.
Qed.

Lemma arr_set_rep m b xs i a : arr_rep m b xs -> i < n -> exists cs,
  arr_set E b i a m = Ok (upd m b cs) /\ arr_rep (upd m b cs) b (<[i := a]> xs).
Proof.
  intros [Hb Hn] Hi. destruct (lookup_lt_is_Some_2 xs i) as [x Hx]; [lia|].
  unfold arr_set. rewrite (assign_live E m b _ i a x Hb) by (by rewrite list_lookup_fmap, Hx).
  eexists. split; [done|]. rewrite <- list_fmap_insert. split; [by eapply blk_upd|].
  by rewrite insert_length.
Qed.
End array.
End proofs.

(** ** Histories of arrays, views *)
Section more.
Context {A : Type} (E : ety A).
Implicit Types (m : mem A) (xs ys : list A).

Lemma fresh_av_rep cap m m' b v xs : fresh m m' b -> av_rep E cap m v xs ->
  av_rep E cap m' v xs /\ av_blk v <> b.
Proof.
  intros (_ & Ho & _) Hr. split.
  - apply (av_rep_mono E cap m); [|done]. intros cs Hcs. by apply Ho.
  - destruct Hr as (rest & _ & Hb & _). by apply (Ho _ _ Hb).
Qed.

Lemma fresh_arr_rep n m m' b b' xs : fresh m m' b -> arr_rep n m b' xs -> arr_rep n m' b' xs /\ b' <> b.
Proof. intros (_ & Ho & _) [Hb Hn]. destruct (Ho _ _ Hb). by split_and!. Qed.

Lemma arr_built_rep n init m0 : length (arr_init n init) = n -> exists b m,
  arr_built E n init m0 = Ok (b, m) /\ arr_rep n m b (arr_init n init) /\ fresh m0 m b.
Proof.
  destruct init as [d|xs]; simpl; intros Hn; [apply arr_new_rep|by apply arr_of_list_rep].
Qed.

Lemma arr_writes_rep n b m0 ws : forall m xs, arr_rep n m b xs -> fresh m0 m b ->
  Forall (fun w => fst w < n) ws ->
  exists m', arr_writes E b ws m = Ok m' /\ arr_rep n m' b (list_writes ws xs) /\ fresh m0 m' b.
Proof.
  induction ws as [|[i a] ws IH]; intros m xs Hr Hf Hws; simpl; [eauto|].
  apply Forall_cons in Hws as [Hi Hws]. simpl in Hi.
  destruct (arr_set_rep E n m b xs i a Hr Hi) as (cs & -> & Hr'). cbn [bind].
  apply IH; [done| |done]. destruct Hr as [Hb _]. by eapply fresh_upd.
Qed.

Lemma arr_after_rep n init ws m0 : length (arr_init n init) = n -> Forall (fun w => fst w < n) ws ->
  exists b m, arr_after E n init ws m0 b m /\ arr_rep n m b (list_writes ws (arr_init n init)) /\ fresh m0 m b.
Proof.
  intros Hn Hws. destruct (arr_built_rep n init m0 Hn) as (b & m1 & Eq & Hr & Hf).
  destruct (arr_writes_rep n b m0 ws m1 _ Hr Hf Hws) as (m & Ew & Hr' & Hf').
  exists b, m. split; [by exists m1|done].
Qed.

Lemma arr_after_inv n init ws m0 b m : length (arr_init n init) = n -> Forall (fun w => fst w < n) ws ->
  arr_after E n init ws m0 b m -> arr_rep n m b (list_writes ws (arr_init n init)) /\ fresh m0 m b.
Proof.
  intros Hn Hws (m1 & E1 & E2). destruct (arr_after_rep n init ws m0 Hn Hws) as (b' & m' & (m1' & F1 & F2) & H).
  rewrite E1 in F1. injection F1 as <- <-. rewrite E2 in F2. by injection F2 as ->.
Qed.

Lemma view_over_fields data k (w : view) : view_over data k w -> w_data w = data /\ w_size w = k.
Proof.
  induction 1 as [w H|cap w H|w H|cap w _ IH|w _ IH]; simpl; try done; destruct data; simpl in H;
    try case_decide; by simplify_eq.
Qed.

Lemma view_over_reads m b off k w xs : (forall i x, xs !! i = Some x -> read m b i = Ok x) ->
  off + k <= length xs -> view_over (CAt b off) k w -> view_reads w m (take k (drop off xs)).
Proof.
  intros Hrd Hk Hw. destruct (view_over_fields _ _ _ Hw) as [Hd Hs].
  assert (Hl : length (take k (drop off xs)) = k) by (rewrite take_length, drop_length; lia).
  assert (Hg : forall i x, take k (drop off xs) !! i = Some x -> view_get w i m = Ok x).
  { intros i x Hx. unfold view_get. rewrite Hd. apply Hrd.
    apply lookup_take_Some in Hx as [Hx _]. by rewrite lookup_drop in Hx. }
  split; [lia|]. split; [done|]. unfold view_iter. apply iter_ok; [lia|done].
Qed.
End more.

Section resize.
Context {A : Type} (E : ety A).
Implicit Types (m : mem A) (xs ys : list A).

Lemma live_vacant (l : list A) : triv E = true -> Forall (vacant E) (Live <$> l).
Proof. intros Ht. apply Forall_forall. intros c _. by right. Qed.

Lemma av_resize_shrink cap m v xs n : triv E = true -> av_rep E cap m v xs -> n <= length xs ->
  av_rep E cap m (AV (av_blk v) n) (take n xs).
Proof.
  intros Ht (rest & Hs & Hb & Hv & Hc) Hn. exists ((Live <$> drop n xs) ++ rest).
  rewrite (assoc_L (++)), <- fmap_app, take_drop, take_length, app_length, fmap_length, drop_length. simpl.
  split_and!; try done; [lia| |lia]. apply Forall_app. split; [by apply live_vacant|done].
Qed.

Lemma av_resize_grow_class cap m v xs n : triv E = false -> av_rep E cap m v xs ->
  length xs < n -> n <= cap -> read m (av_blk v) (length xs) = UB Uninit.
Proof.
  intros Ht (rest & Hs & Hb & Hv & Hc) Hn Hle. unfold read.
  rewrite (with_block_blk _ _ _ _ Hb), lookup_app_r by (rewrite fmap_length; lia).
  rewrite fmap_length, Nat.sub_diag. destruct rest as [|c rest]; [simpl in *; lia|].
  apply Forall_cons in Hv as [[->|?] _]; [done|congruence].
Qed.

Lemma av_resize_leak cap m v xs n : triv E = false -> av_rep E cap m v xs -> n <= length xs ->
  exists m', av_destroy E (AV (av_blk v) n) m = Ok m' /\ leaks m' = leaks m + (length xs - n).
Proof.
  intros Ht (rest & Hs & Hb & Hv & Hc) Hn. unfold av_destroy, destroy_cells. simpl.
  rewrite <- (take_drop n xs), fmap_app, <- (assoc_L (++)) in Hb.
  assert (Hn' : length (take n xs) = n) by (rewrite take_length; lia).
  pose proof (destroy_loop E (fun i m => destroy E m (av_blk v) i) m (av_blk v) (take n xs) _ Hb) as HD.
  rewrite Hn' in HD. rewrite HD by done. cbn [bind]. unfold free.
  assert (Hb' : blk (upd m (av_blk v) ((dead E <$> (Live <$> take n xs)) ++ (Live <$> drop n xs) ++ rest)) (av_blk v)
     ((dead E <$> (Live <$> take n xs)) ++ (Live <$> drop n xs) ++ rest)) by (by eapply blk_upd).
  rewrite Hb', Ht. eexists. split; [done|]. simpl.
  rewrite !live_count_app, live_count_live, (live_count_vacant E rest), drop_length by done.
  rewrite (live_count_vacant E (dead E <$> _)) by (done || apply dead_list_vacant). lia.
Qed.

Lemma vec_resize_shrink m v xs n : triv E = true -> vec_rep E m v xs -> n <= length xs -> 0 < length xs ->
  vec_resize E v n m = Ok (Vec (v_data v) n (v_cap v), m) /\
  vec_rep E m (Vec (v_data v) n (v_cap v)) (take n xs).
Proof.
  intros Ht [Hs [(_ & -> & _)|(b & rest & Hd & Hb & Hv & Hc & H1)]] Hn Hp; [simpl in *; lia|].
  split.
  - unfold vec_resize. rewrite decide_False by lia. done.
  - split; [simpl; rewrite take_length; lia|]. right. exists b, ((Live <$> drop n xs) ++ rest).
    rewrite (assoc_L (++)), <- fmap_app, take_drop, take_length, app_length, fmap_length, drop_length. simpl.
    split_and!; try done; [|lia..]. apply Forall_app. split; [by apply live_vacant|done].
Qed.
End resize.

Section clean_move.
Context {A : Type} (E : ety A).

Lemma av_destroy_other cap (m : mem A) v xs m' b cs : av_rep E cap m v xs -> av_destroy E v m = Ok m' ->
  b <> av_blk v -> blk m b cs -> blk m' b cs.
Proof.
  intros Hr Eq Hne Hb. destruct (destroy_cells_rep E cap m v xs Hr) as (rest & Ed & _ & _ & cs0 & Hb0).
  unfold av_destroy in Eq. rewrite Ed in Eq. cbn [bind] in Eq. unfold free in Eq.
  assert (Hb2 : blk (upd m (av_blk v) rest) (av_blk v) rest) by (by eapply blk_upd).
  rewrite Hb2 in Eq. injection Eq as <-. unfold blk; simpl.
  rewrite list_lookup_insert_ne by (by apply not_eq_sym). by apply blk_upd_ne.
Qed.

Lemma av_move_alloc cap (m : mem A) v xs c v' m1 : av_rep E cap m v xs ->
  av_move E cap v m = Ok (c, v', m1) -> allocations m1 = S (allocations m).
Proof.
  intros (rest & Hs & Hb & Hv & Hc) Eq. unfold av_move in Eq. rewrite Hs in Eq.
  destruct (alloc m cap) as [b m0] eqn:Ea.
  assert (Hb1 := alloc_blk _ _ _ _ Ea). destruct (alloc_fresh _ _ _ _ Ea) as (Hl & Ho & Ha).
  destruct (Ho _ _ Hb) as [Hbo Hne].
  assert (Hb2 : blk m0 b (replicate (length xs) Raw ++ replicate (length rest) Raw)).
  { rewrite <- replicate_add. by rewrite Hc. }
  rewrite (move_loop E _ m0 b (av_blk v) xs _ _ rest (not_eq_sym Hne) Hb2 Hbo) in Eq;
    [|by rewrite replicate_length|apply forall_replicate_raw|done].
  injection Eq as _ _ <-.
  erewrite allocations_upd by (apply blk_upd_ne; [by apply not_eq_sym|done]).
  by erewrite allocations_upd.
Qed.

Lemma av_move_clean cap (m : mem A) v xs : triv E = true -> av_rep E cap m v xs ->
  exists c v' m1 m2 m3, av_move E cap v m = Ok (c, v', m1) /\ av_destroy E c m1 = Ok m2 /\
    av_destroy E v' m2 = Ok m3 /\ leaks m3 = leaks m /\ S (allocations m3) = allocations m.
Proof.
  intros Ht Hr. destruct (av_move_rep E cap m v xs Hr) as (c & m1 & rest & E1 & Hc & Hne & Hl & _ & Hb & Hv & Hcap).
  destruct (av_destroy_rep E cap m1 c xs Hc) as (m2 & E2 & Hl2 & Ha2).
  assert (Hb2 := av_destroy_other cap m1 c xs m2 _ _ Hc E2 (not_eq_sym Hne) Hb).
  assert (Ha1 := av_move_alloc cap m v xs _ _ _ Hr E1).
  assert (Hr2 : av_rep E cap m2 (AV (av_blk v) 0) []).
  { exists ((Live <$> (mvd E <$> xs)) ++ rest). simpl. split_and!; try done.
    - apply Forall_app. split; [by apply live_vacant|done].
    - rewrite app_length, !fmap_length. lia. }
  destruct (av_destroy_rep E cap m2 _ [] Hr2) as (m3 & E3 & Hl3 & Ha3).
  exists c, (AV (av_blk v) 0), m1, m2, m3. split_and!; try done; [congruence|lia].
Qed.
End clean_move.
