(** VectorBase (sequence.hpp:536-903) is a growable list. *)
From Verif Require Import Base.Cpp Base.Mem Model.Vector Spec.VectorSpec Proofs.MemLemmas.
Set Default Proof Using "Type".

(** ** Counting allocations *)
Section alloc.
Context {A : Type}.
Implicit Types (m : mem A).

Notation alive := (fun o : option (list (cell A)) => match o with Some _ => true | None => false end).

Lemma filter_insert_alive (l : list (option (list (cell A)))) i o o' :
  l !! i = Some o -> length (List.filter alive (<[i := o']> l)) + (if alive o then 1 else 0) =
    length (List.filter alive l) + (if alive o' then 1 else 0).
Proof.
  revert i. induction l as [|x l IH]; intros [|i] H; simpl in *; try done.
  - injection H as ->. destruct o, o'; simpl; lia.
  - specialize (IH i H). destruct x; simpl; lia.
Qed.

Lemma allocations_upd m b cs cs' : blk m b cs -> allocations (upd m b cs') = allocations m.
Proof.
  intros H. unfold allocations, upd; simpl.
  pose proof (filter_insert_alive (blocks m) b (Some cs) (Some cs') H) as HH. simpl in HH. lia.
Qed.

Lemma allocations_alloc m n b m' : alloc m n = (b, m') -> allocations m' = S (allocations m).
Proof.
  intros H. injection H as <- <-. unfold allocations; simpl.
  rewrite List.filter_app, app_length. simpl. lia.
Qed.

Lemma allocations_free m b cs k : blk m b cs ->
  S (allocations (Mem (<[b := None]> (blocks m)) k)) = allocations m.
Proof.
  intros H. unfold allocations; simpl.
  pose proof (filter_insert_alive (blocks m) b (Some cs) None H) as HH. simpl in HH. lia.
Qed.
End alloc.

Section proofs.
Context {A : Type} (E : ety A).
Implicit Types (m : mem A) (v : vec) (xs : list A).

(** Nothing allocated, or a block with the elements, then vacant cells, at least one. *)
Definition vec_rep m v xs : Prop :=
  v_size v = length xs /\
  ((v_data v = Null /\ xs = [] /\ v_cap v = 0) \/
   exists b rest, v_data v = Blk b /\ blk m b ((Live <$> xs) ++ rest) /\
     Forall (vacant E) rest /\ v_cap v = length xs + length rest /\ 1 <= length rest).

(** The same without the spare slot; strings can get here. *)
Definition vec_repw m v xs : Prop :=
  v_size v = length xs /\
  ((v_data v = Null /\ xs = [] /\ v_cap v = 0) \/
   exists b rest, v_data v = Blk b /\ blk m b ((Live <$> xs) ++ rest) /\
     Forall (vacant E) rest /\ v_cap v = length xs + length rest).

Lemma vec_rep_w m v xs : vec_rep m v xs -> vec_repw m v xs.
Proof.
  intros [Hs [H|(b & rest & Hd & Hb & Hv & Hc & _)]]; (split; [done|]); [by left|right; eauto 8].
Qed.

Definition held v : nat := match v_data v with Blk _ => 1 | _ => 0 end.

(** What an operation that turns [v] into [v'] does to everything else. *)
Definition frame m v m' v' : Prop :=
  leaks m' = leaks m /\
  (forall b cs, v_data v <> Blk b -> blk m b cs -> blk m' b cs /\ v_data v' <> Blk b) /\
  (forall b, v_data v' = Blk b -> v_data v = Blk b \/ length (blocks m) <= b) /\
  length (blocks m) <= length (blocks m') /\
  allocations m' + held v = allocations m + held v'.

Lemma frame_refl m v : frame m v m v.
Proof. unfold frame. split_and!; auto. Qed.

Lemma frame_trans m v m1 v1 m2 v2 : frame m v m1 v1 -> frame m1 v1 m2 v2 -> frame m v m2 v2.
Proof.
  intros (Hl1 & Ho1 & Hp1 & Hn1 & Hc1) (Hl2 & Ho2 & Hp2 & Hn2 & Hc2).
  split; [congruence|]. split.
  { intros b cs Hne Hb. destruct (Ho1 _ _ Hne Hb) as [Hb1 Hne1]. by apply Ho2. }
  split.
  { intros b Hb. destruct (Hp2 b Hb) as [H|H]; [|right; lia].
    destruct (Hp1 b H) as [H'|H']; [by left|right; lia]. }
  split; [lia|]. lia.
Qed.

Lemma frame_upd m v b cs cs' n c : v_data v = Blk b -> blk m b cs ->
  frame m v (upd m b cs') (Vec (Blk b) n c).
Proof.
  intros Hv Hb. split; [done|]. split.
  { intros b' cs'' Hne Hb'. assert (b' <> b) by congruence.
    split; [by apply blk_upd_ne|]. simpl. congruence. }
  split; [simpl; intros b' [= <-]; by left|]. split; [by rewrite length_upd|].
  rewrite (allocations_upd m b cs) by done. unfold held. by rewrite Hv.
Qed.

Lemma vec_rep_mono m m' v xs :
  (forall b cs, v_data v = Blk b -> blk m b cs -> blk m' b cs) -> vec_rep m v xs -> vec_rep m' v xs.
Proof.
  intros H [Hs [Hn|(b & rest & Hv & Hb & Hr)]]; split; try done; [by left|].
  right. exists b, rest. split_and!; try done; [by apply H|apply Hr..].
Qed.

(** Two vectors do not share storage. *)
Definition disj v w : Prop := forall b, v_data v = Blk b -> v_data w <> Blk b.

Lemma frame_other m v m' v' w ys : frame m v m' v' -> vec_rep m w ys -> disj w v ->
  vec_rep m' w ys /\ disj w v'.
Proof.
  intros (_ & Ho & _) [Hs Hw] Hd. split.
  - apply (vec_rep_mono m); [|by split]. intros b cs Hb Hc. apply Ho; [|done]. by apply Hd.
  - intros b Hb. destruct Hw as [(Hn & _)|(b' & rest & Hv & Hbk & _)]; [congruence|].
    assert (b' = b) by congruence. subst b'. eapply Ho; [|done]. by apply Hd.
Qed.

Lemma vec_rep_new m : vec_rep m vec_new [].
Proof. split; [done|]. by left. Qed.

(** ** Reading *)
Lemma vec_rep_get m v xs i x : vec_rep m v xs -> xs !! i = Some x -> vec_get v i m = Ok x.
Proof.
  intros [Hs [(_ & -> & _)|(b & rest & Hv & Hb & _)]] Hi; [done|].
  unfold vec_get, pread. rewrite Hv. simpl. eapply read_ok; [done|]. by apply lookup_live_app.
Qed.

Lemma vec_rep_iter m v xs : vec_rep m v xs -> vec_iter v m = Ok xs.
Proof.
  intros Hr. apply wp_eq. unfold vec_iter. destruct (Hr) as [Hs _].
  apply (wp_for_up (fun i acc => acc = take i xs)).
  - by rewrite take_0.
  - intros k acc _ Hk ->. rewrite Hs in Hk. simpl in Hk.
    destruct (lookup_lt_is_Some_2 xs k Hk) as [x Hx].
    fold (vec_get v k m). rewrite (vec_rep_get _ _ _ _ _ Hr Hx). simpl. apply wp_ok.
    symmetry. by apply take_S_r.
  - intros acc ->. simpl. rewrite Hs. by rewrite firstn_all.
Qed.

Lemma vec_rep_reads m v xs : vec_rep m v xs -> vec_reads v m xs.
Proof.
  intros Hr. split; [by destruct Hr|]. split; [|by apply vec_rep_iter].
  intros i x Hi. by eapply vec_rep_get.
Qed.

Lemma vec_reads_fun m v xs ys : vec_reads v m xs -> vec_reads v m ys -> xs = ys.
Proof. intros (_ & _ & H1) (_ & _ & H2). congruence. Qed.

(** ** Reallocation *)
Lemma realloc_rep m v xs (n : nat) : vec_repw m v xs -> length xs < n ->
  exists m', (let (b, m1) := alloc m n in
    let* m2 := for_up (v_size v) 0 (fun i m =>
      let* (x, m) := pmove_out E m (v_data v) i in construct E m b i x) m1 in
    let* m3 := destroy_all E (v_data v) (v_size v) m2 in
    let* m4 := pfree E m3 (v_data v) in
    Ok (Vec (Blk b) (v_size v) n, m4)) = Ok (Vec (Blk (length (blocks m))) (v_size v) n, m') /\
   blk m' (length (blocks m)) ((Live <$> xs) ++ replicate (n - length xs) Raw) /\
   (forall b, v_data v = Blk b -> blocks m' !! b = Some None) /\
   frame m v m' (Vec (Blk (length (blocks m))) (v_size v) n).
Proof.
  intros [Hs Hr] Hn. destruct (alloc m n) as [b m1] eqn:Ea.
  assert (Hb1 := alloc_blk _ _ _ _ Ea). assert (Hca := allocations_alloc _ _ _ _ Ea).
  assert (Hold := fun b' cs => alloc_old _ _ _ _ b' cs Ea).
  assert (Heb : b = length (blocks m)) by (by injection Ea).
  assert (Hl1 : leaks m1 = leaks m) by (injection Ea as _ <-; done).
  assert (Hlen1 : length (blocks m1) = S (length (blocks m))).
  { injection Ea as _ <-. simpl. rewrite app_length. simpl. lia. }
  destruct Hr as [(Hd & -> & Hc)|(bo & rest & Hd & Hbo & Hv & Hc)].
  - rewrite Hs, Hd. simpl. exists m1. rewrite Heb in *. split; [done|].
    replace (n - 0) with n by lia. split; [done|]. split; [done|].
    split; [done|]. split.
    { intros b' cs _ Hb'. destruct (Hold _ _ Hb'). split; [done|]. simpl. congruence. }
    split; [intros b' [= <-]; by right|]. split; [lia|]. unfold held. rewrite Hd. simpl. lia.
  - destruct (Hold _ _ Hbo) as [Hbo1 Hne].
    replace (replicate n Raw) with (replicate (length xs) (@Raw A) ++ replicate (n - length xs) Raw) in Hb1.
    2:{ rewrite <- replicate_add. f_equal. lia. }

    rewrite Hs, Hd.
    rewrite (move_loop E _ m1 b bo xs (replicate (length xs) Raw) (replicate (n - length xs) Raw) rest);
      [|by apply not_eq_sym|done|done|by rewrite replicate_length|apply forall_replicate_raw|done].
    cbn [bind]. unfold destroy_all.
    set (m2 := upd (upd m1 bo _) b _).
    assert (Hbo2 : blk m2 bo ((Live <$> (mvd E <$> xs)) ++ rest)).
    { unfold m2. apply blk_upd_ne; [done|]. by eapply blk_upd. }
    pose proof (destroy_loop E (fun i m => pdestroy E m (Blk bo) i) m2 bo (mvd E <$> xs) rest Hbo2
      (fun _ _ _ _ => eq_refl)) as Ed.
    rewrite fmap_length in Ed. rewrite Ed.
    cbn [bind pfree].
    set (m3 := upd m2 bo _).
    assert (Hbo3 : blk m3 bo ((dead E <$> (Live <$> (mvd E <$> xs))) ++ rest)) by (by eapply blk_upd).
    assert (Hb3 : blk m3 b ((Live <$> xs) ++ replicate (n - length xs) Raw)).
    { unfold m3. apply blk_upd_ne; [by apply not_eq_sym|]. unfold m2. eapply blk_upd.
      by apply blk_upd_ne; [apply not_eq_sym|]. }
    rewrite (free_ok E m3 bo _ Hbo3).
    2:{ destruct (triv E) eqn:Ht; [by left|right]. apply Forall_app. split.
        - destruct (dead_list_free E (mvd E <$> xs)) as [?|?]; [congruence|done].
        - eapply Forall_impl; [exact Hv|]. intros c [?|?]; [done|congruence]. }
    cbn [bind]. eexists. rewrite <- Heb. split; [done|].
    split. { unfold blk; simpl. rewrite list_lookup_insert_ne by done. exact Hb3. }
    split. { intros b' [= <-]. apply blk_lt in Hbo3. exact (list_lookup_insert (blocks m3) bo None Hbo3). }
    split; [done|]. split.
    { intros b' cs Hne' Hb'. assert (b' <> bo) by congruence.
      destruct (Hold _ _ Hb') as [Hb1' Hne1]. split.
      - assert (Hb3' : blk m3 b' cs).
        { unfold m3, m2. by do 3 (apply blk_upd_ne; [done|]). }
        unfold blk; cbn [blocks]. by rewrite list_lookup_insert_ne by done.
      - simpl. congruence. }
    split; [simpl; intros b' [= <-]; right; lia|].
    split; [simpl; rewrite !insert_length; lia|].
    pose proof (allocations_free m3 bo _ (leaks m3) Hbo3) as Hf.
    assert (H3 : allocations m3 = allocations m1).
    { unfold m3. rewrite (allocations_upd m2 bo _ _ Hbo2). unfold m2.
      rewrite (allocations_upd _ b (replicate (length xs) Raw ++ replicate (n - length xs) Raw)).
      - by rewrite (allocations_upd _ bo _ _ Hbo1).
      - by apply blk_upd_ne; [apply not_eq_sym|]. }
    unfold held. rewrite Hd. simpl v_data. cbn iota. lia.
Qed.

Lemma grown_rep m v xs n b : v_size v = length xs -> length xs < n ->
  blk m b ((Live <$> xs) ++ replicate (n - length xs) Raw) -> vec_rep m (Vec (Blk b) (v_size v) n) xs.
Proof.
  intros Hs Hn Hb. split; [done|]. right. exists b, (replicate (n - length xs) Raw). simpl.
  rewrite replicate_length. split_and!; try done; [apply forall_replicate_raw|lia..].
Qed.

Lemma vec_rep_cap m v xs : vec_rep m v xs -> xs = [] /\ v_cap v = 0 /\ v_data v = Null \/ length xs < v_cap v.
Proof. intros [_ [(?&?&?)|(b & rest & _ & _ & _ & Hc & H1)]]; [by left|right; lia]. Qed.

Lemma vec_reserve_rep m v xs k : vec_rep m v xs -> exists v' m',
  vec_reserve E v k m = Ok (v', m') /\ vec_rep m' v' xs /\ frame m v m' v' /\
  v_cap v' = Nat.max (v_cap v) k /\ v_size v' = v_size v.
Proof.
  intros Hr. unfold vec_reserve. case_decide as Hk.
  - destruct (realloc_rep m v xs k (vec_rep_w _ _ _ Hr)) as (m' & Eq & Hb & _ & Hf).
    { destruct (vec_rep_cap _ _ _ Hr) as [(-> & H & _)|H]; simpl; lia. }
    eexists _, m'. split; [exact Eq|]. split; [|split; [done|simpl; split; [lia|done]]].
    apply grown_rep; [by destruct Hr| |done].
    destruct (vec_rep_cap _ _ _ Hr) as [(-> & H & _)|H]; simpl; lia.
  - exists v, m. split; [done|]. split; [done|]. split; [apply frame_refl|]. split; [lia|done].
Qed.

Lemma vec_shrink_rep m v xs : vec_rep m v xs -> exists v' m',
  vec_shrink E v m = Ok (v', m') /\ vec_rep m' v' xs /\ frame m v m' v' /\ v_cap v' = length xs + 1.
Proof.
  intros Hr. assert (Hs : v_size v = length xs) by (by destruct Hr).
  unfold vec_shrink. rewrite decide_True.
  - destruct (realloc_rep m v xs (v_size v + 1) (vec_rep_w _ _ _ Hr)) as (m' & Eq & Hb & _ & Hf); [lia|].
    eexists _, m'. split; [exact Eq|]. split; [|split; [done|simpl; lia]].
    apply grown_rep; [done|lia|done].
  - destruct (vec_rep_cap _ _ _ Hr) as [(-> & H & _)|H]; simpl in *; lia.
Qed.

(** ** push_back *)
Lemma vec_grow_rep m v xs : vec_rep m v xs -> exists v' m',
  vec_grow E v m = Ok (v', m') /\ vec_rep m' v' xs /\ frame m v m' v' /\ length xs + 1 < v_cap v' /\
  (length xs + 1 < v_cap v -> v' = v /\ m' = m).
Proof.
  intros Hr. assert (Hs : v_size v = length xs) by (by destruct Hr).
  unfold vec_grow. case_decide as Hc.
  - destruct (vec_reserve_rep m v xs (if decide (v_size v = 0) then 2 else 2 * v_size v + 1) Hr)
      as (v' & m' & Eq & Hr' & Hf & Hc' & _).
    exists v', m'. split_and!; try done.
    + destruct (vec_rep_cap _ _ _ Hr) as [(-> & H & _)|H].
      * rewrite Hs in Hc'. simpl in *. lia.
      * case_decide; lia.
    + lia.
  - exists v, m. split_and!; try done; [apply frame_refl|lia].
Qed.

Lemma spare_push m v xs a : vec_rep m v xs -> length xs + 1 < v_cap v -> exists b cs',
  v_data v = Blk b /\ pconstruct E m (v_data v) (v_size v) a = Ok (upd m b cs') /\
  vec_rep (upd m b cs') (Vec (v_data v) (v_size v + 1) (v_cap v)) (xs ++ [a]) /\
  frame m v (upd m b cs') (Vec (v_data v) (v_size v + 1) (v_cap v)).
Proof.
  intros [Hs [(Hd & -> & Hc)|(b & rest & Hd & Hb & Hv & Hc & H1)]] Hcap; [simpl in *; lia|].
  destruct rest as [|c rest]; [simpl in *; lia|]. apply Forall_cons in Hv as [Hvc Hv].
  exists b, ((Live <$> (xs ++ [a])) ++ rest). split; [done|]. rewrite Hd. split; [|split].
  - unfold pconstruct, with_ptr. rewrite Hs.
    rewrite (construct_vacant E m b _ (length xs) c a Hb); [|..|done].
    + rewrite insert_boundary by (by rewrite fmap_length). by rewrite fmap_app.
    + rewrite lookup_app_r by (rewrite fmap_length; lia). rewrite fmap_length.
      by rewrite Nat.sub_diag.
  - split; [simpl; rewrite app_length; simpl; lia|]. right. exists b, rest. simpl.
    rewrite app_length. simpl in *. split_and!; try done; [by eapply blk_upd|lia|lia].
  - by eapply frame_upd.
Qed.

Lemma vec_push_rep m v xs a : vec_rep m v xs -> exists v' m',
  vec_push E v a m = Ok (v', m') /\ vec_rep m' v' (xs ++ [a]) /\ frame m v m' v'.
Proof.
  intros Hr. destruct (vec_grow_rep m v xs Hr) as (v1 & m1 & Eg & Hr1 & Hf1 & Hc & _).
  destruct (spare_push m1 v1 xs a Hr1 Hc) as (b & cs' & Hd & Ec & Hr2 & Hf2).
  unfold vec_push. rewrite Eg. cbn [bind]. rewrite Ec. cbn [bind].
  eexists _, _. split; [done|]. split; [done|]. by eapply frame_trans.
Qed.

Lemma vec_push_own_rep m v xs i a : vec_rep m v xs -> xs !! i = Some a ->
  length xs + 1 < v_cap v -> vec_push_own E v i m = vec_push E v a m.
Proof.
  intros Hr Hi Hc. destruct (vec_grow_rep m v xs Hr) as (v1 & m1 & Eg & Hr1 & Hf1 & _ & Hsame).
  destruct (Hsame Hc) as [-> ->]. unfold vec_push_own, vec_push. rewrite Eg. cbn [bind].
  change (pread m (v_data v) i) with (vec_get v i m).
  rewrite (vec_rep_get _ _ _ _ _ Hr Hi). done.
Qed.

(** When the push reallocates, the argument is read from the released block. *)
Lemma vec_push_own_ub m v xs i a : vec_rep m v xs -> xs !! i = Some a ->
  v_cap v = length xs + 1 -> vec_push_own E v i m = UB UseAfterFree.
Proof.
  intros Hr Hi Hc. assert (Hs : v_size v = length xs) by (by destruct Hr).
  assert (Hlt := lookup_lt_Some _ _ _ Hi).
  assert (exists b, v_data v = Blk b) as [b Hd].
  { destruct Hr as [_ [(_ & -> & _)|(b & ? & ? & _)]]; [done|eauto]. }
  unfold vec_push_own, vec_grow. rewrite decide_True by lia.
  unfold vec_reserve. rewrite (decide_False (P := v_size v = 0)) by lia.
  rewrite decide_True by lia.
  destruct (realloc_rep m v xs (2 * v_size v + 1) (vec_rep_w _ _ _ Hr)) as (m' & Eq & _ & Hrel & _); [lia|].
  rewrite Eq. cbn [bind]. rewrite Hd. unfold pread, with_ptr, read, with_block.
  rewrite (Hrel b Hd). done.
Qed.

(** ** pop_back, clear, element writes *)
Lemma vec_pop_rep m v xs a : vec_repw m v (xs ++ [a]) -> exists v' m',
  vec_pop E v m = Ok (v', m') /\ vec_rep m' v' xs /\ frame m v m' v'.
Proof.
  intros [Hs [(_ & H & _)|(b & rest & Hd & Hb & Hv & Hc)]].
  { by apply app_nil in H as [_ ?]. }
  rewrite app_length in Hs, Hc. simpl in Hs, Hc. unfold vec_pop.
  rewrite decide_False by lia. rewrite Hd. unfold pdestroy, with_ptr.
  replace (v_size v - 1) with (length xs) by lia.
  rewrite fmap_app, <- (assoc_L (++)) in Hb. simpl in Hb.
  rewrite (destroy_live E m b _ (length xs) a Hb).
  2:{ rewrite lookup_app_r by (rewrite fmap_length; lia). rewrite fmap_length.
      by rewrite Nat.sub_diag. }
  cbn [bind]. rewrite insert_boundary by (by rewrite fmap_length).
  eexists _, _. split; [done|]. split; [|by eapply frame_upd].
  split; [done|]. right. exists b, (dead E (Live a) :: rest). simpl.
  rewrite <- (assoc_L (++)). simpl. split_and!; try done; [by eapply blk_upd| |lia|lia].
  constructor; [apply dead_vacant|done].
Qed.

Lemma destroy_all_repw m v xs : vec_repw m v xs ->
  (v_data v = Null /\ xs = [] /\ v_cap v = 0 /\ destroy_all E (v_data v) (v_size v) m = Ok m) \/
  (exists b rest, v_data v = Blk b /\ Forall (vacant E) rest /\ length rest = v_cap v /\
     (exists cs, blk m b cs) /\
     destroy_all E (v_data v) (v_size v) m = Ok (upd m b rest)).
Proof.
  intros [Hs [(Hd & -> & Hc)|(b & rest & Hd & Hb & Hv & Hc)]].
  - left. rewrite Hs. done.
  - right. exists b, ((dead E <$> (Live <$> xs)) ++ rest). split; [done|].
    split. { apply Forall_app. split; [apply dead_list_vacant|done]. }
    split. { rewrite app_length, !fmap_length. lia. }
    split; [eauto|].
    rewrite Hs, Hd. unfold destroy_all. by apply (destroy_loop E).
Qed.

Lemma destroy_all_rep m v xs : vec_rep m v xs ->
  (v_data v = Null /\ xs = [] /\ v_cap v = 0 /\ destroy_all E (v_data v) (v_size v) m = Ok m) \/
  (exists b rest, v_data v = Blk b /\ Forall (vacant E) rest /\ length rest = v_cap v /\
     1 <= v_cap v /\ (exists cs, blk m b cs) /\
     destroy_all E (v_data v) (v_size v) m = Ok (upd m b rest)).
Proof.
  intros Hr. destruct (destroy_all_repw m v xs (vec_rep_w _ _ _ Hr)) as [H|(b & rest & Hd & Hv & Hl & H)]; [by left|].
  right. exists b, rest. split_and!; try done; [|apply H..].
  destruct Hr as [_ [(Hn & _)|(b' & rest' & _ & _ & _ & Hc & H1)]]; [congruence|lia].
Qed.

Lemma vec_clear_rep m v xs : vec_rep m v xs -> exists v' m',
  vec_clear E v m = Ok (v', m') /\ vec_rep m' v' [] /\ frame m v m' v' /\ v_cap v' = v_cap v.
Proof.
  intros Hr. unfold vec_clear.
  destruct (destroy_all_rep m v xs Hr) as [(Hd & -> & Hc & ->)|
    (b & rest & Hd & Hv & Hl & H1 & (cs & Hb) & ->)]; cbn [bind]; eexists _, _; (split; [done|]).
  - split; [split; [done|left; done]|]. split; [|done].
    rewrite Hd. destruct Hr as [Hs _]. destruct v as [d s c]; simpl in *; subst. apply frame_refl.
  - rewrite Hd. split; [|split; [by eapply frame_upd|done]].
    split; [done|]. right. exists b, rest. simpl. split_and!; try done; [by eapply blk_upd|lia].
Qed.

Lemma vec_set_rep m v xs i a : vec_rep m v xs -> i < length xs -> exists m',
  vec_set E v i a m = Ok m' /\ vec_rep m' v (<[i := a]> xs) /\ frame m v m' v.
Proof.
  intros [Hs [(Hd & -> & Hc)|(b & rest & Hd & Hb & Hv & Hc & H1)]] Hi; [simpl in *; lia|].
  destruct (lookup_lt_is_Some_2 xs i Hi) as [x Hx].
  unfold vec_set, passign. rewrite Hd. cbn [with_ptr].
  rewrite (assign_live E m b _ i a x Hb) by (by apply lookup_live_app).
  eexists. split; [done|].
  rewrite (insert_app_l (Live <$> xs)) by (by rewrite fmap_length).
  rewrite <- list_fmap_insert.
  split.
  - split; [by rewrite insert_length|]. right. exists b, rest. rewrite insert_length.
    split_and!; try done; by eapply blk_upd.
  - destruct v as [d s c]. simpl in Hd. subst d. by eapply frame_upd.
Qed.

(** ** insert *)
Lemma vec_insert_rep m v xs i a : vec_rep m v xs -> i <= length xs ->
  triv E = true \/ i = length xs -> exists v' m',
  vec_insert E v i a m = Ok (v', m') /\ vec_rep m' v' (take i xs ++ a :: drop i xs) /\ frame m v m' v'.
Proof.
  intros Hr Hi Hte. assert (Hs : v_size v = length xs) by (by destruct Hr).
  unfold vec_insert. rewrite decide_False by lia.
  assert (exists v1 m1, (if decide (v_cap v <= v_size v + 1)
     then vec_reserve E v (if decide (v_cap v = 0) then 2 else 2 * v_cap v) m
     else Ok (v, m)) = Ok (v1, m1) /\ vec_rep m1 v1 xs /\ frame m v m1 v1 /\
     length xs + 1 < v_cap v1) as (v1 & m1 & -> & Hr1 & Hf1 & Hc1).
  { case_decide as Hc.
    - destruct (vec_reserve_rep m v xs (if decide (v_cap v = 0) then 2 else 2 * v_cap v) Hr)
        as (v1 & m1 & Eq & Hr1 & Hf & Hc' & _).
      exists v1, m1. split_and!; try done.
      destruct (vec_rep_cap _ _ _ Hr) as [(-> & H & _)|H]; simpl in *; case_decide; lia.
    - exists v, m. split_and!; try done; [apply frame_refl|lia]. }
  cbn [bind]. destruct Hr1 as [Hs1 [(Hd & -> & Hc)|(b & rest & Hd & Hb & Hv & Hc & H1)]].
  { simpl in *; lia. }
  destruct rest as [|c0 rest]; [simpl in *; lia|]. apply Forall_cons in Hv as [Hvc Hv].
  set (ins := take i xs ++ a :: drop i xs).
  assert (Hl : exists c, vacant E c /\ for_down (v_size v1) i (fun k m =>
      let* (x, m) := pmove_out E m (v_data v1) k in passign E m (v_data v1) (S k) x) m1 =
      Ok (upd m1 b ((Live <$> take i xs) ++ c :: (Live <$> drop i xs) ++ rest))).
  { rewrite Hs1, Hd.
    destruct (decide (i = length xs)) as [->|Hne].
    - exists c0. split; [done|].
      assert (H0 : for_down (length xs) (length xs) (fun k m =>
        let* (x, m) := pmove_out E m (Blk b) k in passign E m (Blk b) (S k) x) m1 = Ok m1).
      { clear. destruct (length xs) as [|n]; [done|]. cbn [for_down].
        rewrite decide_False by lia. done. }
      rewrite H0. rewrite firstn_all, drop_ge by lia. simpl. by rewrite upd_same.
    - destruct Hte as [Ht|?]; [|done].
      assert (HH : wp (for_down (length xs) i (fun k m =>
        let* (x, m) := pmove_out E m (Blk b) k in passign E m (Blk b) (S k) x) m1)
        (fun m' => exists c, m' = upd m1 b ((Live <$> take i xs) ++ c :: (Live <$> drop i xs) ++ rest))).
      { apply (wp_for_down (fun k m' => exists c, m' =
          upd m1 b ((Live <$> take k xs) ++ c :: (Live <$> drop k xs) ++ rest))); [lia|..|done].
        - exists c0. rewrite firstn_all, drop_ge by lia. simpl. by rewrite upd_same.
        - intros k m' Hk1 Hk2 [c ->].
          destruct (lookup_lt_is_Some_2 xs k Hk2) as [x Hx].
          erewrite take_S_r by done. rewrite fmap_app, <- (assoc_L (++)). simpl.
          unfold pmove_out, passign, with_ptr.
          erewrite (move_out_live E _ b _ k x).
          2:{ by eapply blk_upd. }
          2:{ rewrite lookup_app_r by (rewrite fmap_length, take_length; lia).
              rewrite fmap_length, take_length. by replace (k - k `min` length xs) with 0 by lia. }
          cbn [bind]. rewrite upd_upd.
          rewrite insert_boundary by (rewrite fmap_length, take_length; lia).
          erewrite (assign_triv E _ b _ (S k)); [|done|by eapply blk_upd|].
          2:{ rewrite lookup_app_r by (rewrite app_length, fmap_length, take_length; simpl; lia).
              rewrite app_length, fmap_length, take_length; simpl.
              by replace (S k - (k `min` length xs + 1)) with 0 by lia. }
          apply wp_ok. exists (Live (mvd E x)). rewrite upd_upd. f_equal.
          rewrite insert_boundary by (rewrite app_length, fmap_length, take_length; simpl; lia).
          rewrite (drop_S xs x k Hx). simpl. rewrite <- !(assoc_L (++)). done. }
      destruct HH as (m' & -> & c & ->). exists c. split; [by right|done]. }
  destruct Hl as (c & Hvac & ->). cbn [bind]. rewrite Hd. unfold pconstruct, with_ptr.
  rewrite (construct_vacant E _ b ((Live <$> take i xs) ++ c :: (Live <$> drop i xs) ++ rest) i c).
  2:{ by eapply blk_upd. }
  2:{ rewrite lookup_app_r by (rewrite fmap_length, take_length; lia).
      rewrite fmap_length, take_length. by replace (i - i `min` length xs) with 0 by lia. }
  2:{ done. }
  cbn [bind]. rewrite upd_upd.
  rewrite insert_boundary by (rewrite fmap_length, take_length; lia).
  assert (Hil : length ins = length xs + 1).
  { unfold ins. rewrite app_length. simpl. rewrite take_length, drop_length. lia. }
  assert (Hcs : ((Live <$> take i xs) ++ [Live a]) ++ (Live <$> drop i xs) ++ rest = (Live <$> ins) ++ rest).
  { unfold ins. rewrite fmap_app, fmap_cons. rewrite <- !(assoc_L (++)). done. }
  rewrite Hcs. eexists _, _. split; [done|]. split.
  - split; [simpl; lia|]. right. exists b, rest. simpl in *.
    split_and!; try done; [by eapply blk_upd|lia|lia].
  - eapply frame_trans; [exact Hf1|]. by eapply frame_upd.
Qed.

(** ** erase *)
Lemma vec_erase_rep m v xs i : vec_repw m v xs -> i < length xs ->
  triv E = true \/ S i = length xs -> exists v' m',
  vec_erase E v i m = Ok (v', m') /\ vec_rep m' v' (take i xs ++ drop (S i) xs) /\ frame m v m' v'.
Proof.
  intros [Hs [(Hd & -> & Hc)|(b & rest & Hd & Hb & Hv & Hc)]] Hi Hte; [simpl in *; lia|].
  unfold vec_erase. rewrite decide_False by lia.
  destruct (lookup_lt_is_Some_2 xs i Hi) as [x Hx].
  set (ys := take i xs ++ drop (S i) xs).
  assert (Hyl : length ys = length xs - 1).
  { unfold ys. rewrite app_length, take_length, drop_length. lia. }
  assert (Htk : take i ys = take i xs).
  { unfold ys. rewrite take_app_le by (rewrite take_length; lia). by rewrite take_take, Nat.min_id. }
  assert (Hyk : forall k y, i <= k -> xs !! S k = Some y -> ys !! k = Some y).
  { intros k y Hk Hy. unfold ys. rewrite lookup_app_r by (rewrite take_length; lia).
    rewrite take_length, lookup_drop. rewrite <- Hy. f_equal. lia. }
  rewrite Hd. unfold pdestroy, with_ptr.
  rewrite (destroy_live E m b _ i x Hb) by (by apply lookup_live_app). cbn [bind].
  assert (Hsplit : (Live <$> xs) ++ rest = (Live <$> take i xs) ++ Live x :: (Live <$> drop (S i) xs) ++ rest).
  { rewrite <- (take_drop_middle xs i x Hx) at 1. by rewrite fmap_app, fmap_cons, <- (assoc_L (++)). }
  rewrite Hsplit.
  rewrite insert_boundary by (rewrite fmap_length, take_length; lia).
  rewrite <- (assoc_L (++)). simpl app.
  assert (Hl : exists c, vacant E c /\ for_up (v_size v - 1 - i) i (fun i m =>
      let* (x, m) := pmove_out E m (Blk b) (i + 1) in passign E m (Blk b) i x)
      (upd m b ((Live <$> take i xs) ++ dead E (Live x) :: (Live <$> drop (S i) xs) ++ rest)) =
      Ok (upd m b ((Live <$> ys) ++ c :: rest))).
  { destruct (decide (S i = length xs)) as [He|Hne].
    - replace (v_size v - 1 - i) with 0 by lia. simpl. exists (dead E (Live x)).
      split; [apply dead_vacant|]. rewrite (drop_ge xs (S i)) by lia. simpl.
      unfold ys. rewrite (drop_ge xs (S i)) by lia. by rewrite app_nil_r.
    - destruct Hte as [Ht|?]; [|lia].
      assert (HH : wp (for_up (v_size v - 1 - i) i (fun i m =>
         let* (x, m) := pmove_out E m (Blk b) (i + 1) in passign E m (Blk b) i x)
         (upd m b ((Live <$> take i xs) ++ dead E (Live x) :: (Live <$> drop (S i) xs) ++ rest)))
         (fun m' => exists c, m' = upd m b ((Live <$> ys) ++ c :: rest))).
      { apply (wp_for_up (fun k m' => exists c, m' =
          upd m b ((Live <$> take k ys) ++ c :: (Live <$> drop (S k) xs) ++ rest))).
        - exists (dead E (Live x)). by rewrite Htk.
        - intros k m' Hk1 Hk2 [c ->].
          destruct (lookup_lt_is_Some_2 xs (S k)) as [y Hy]; [lia|].
          assert (Hlk : length (take k ys) = k) by (rewrite take_length; lia).
          unfold pmove_out, passign, with_ptr.
          erewrite (move_out_live E _ b _ (k + 1) y).
          2:{ by eapply blk_upd. }
          2:{ rewrite lookup_app_r by (rewrite fmap_length; lia).
              rewrite fmap_length, Hlk. replace (k + 1 - k) with 1 by lia.
              rewrite (drop_S xs y (S k) Hy). done. }
          cbn [bind]. rewrite upd_upd. rewrite (drop_S xs y (S k) Hy).
          rewrite insert_app_r_alt by (rewrite fmap_length; lia).
          rewrite fmap_length, Hlk. replace (k + 1 - k) with 1 by lia. simpl.
          erewrite (assign_triv E _ b _ k); [|done|by eapply blk_upd|].
          2:{ rewrite lookup_app_r by (rewrite fmap_length; lia). rewrite fmap_length, Hlk.
              by rewrite Nat.sub_diag. }
          apply wp_ok. exists (Live (mvd E y)). rewrite upd_upd. f_equal.
          rewrite insert_boundary by (rewrite fmap_length; lia).
          erewrite (take_S_r ys k y) by (by apply Hyk). rewrite fmap_app. done.
        - intros m' [c ->]. exists c. f_equal. 
          replace (i + (v_size v - 1 - i)) with (length ys) by lia.
          rewrite firstn_all. rewrite (drop_ge xs) by lia. done. }
      destruct HH as (m' & -> & c & ->). exists c. split; [by right|done]. }
  destruct Hl as (c & Hvac & ->). cbn [bind]. eexists _, _. split; [done|]. split.
  - split; [simpl; lia|]. right. exists b, (c :: rest). simpl.
    split_and!; try done; [by eapply blk_upd|by constructor|lia|lia].
  - by eapply frame_upd.
Qed.

(** For a class type, insert before the end assigns to the raw slot past the end, and erase
    before the end assigns to the destroyed slot. *)
Lemma vec_insert_class m v xs i a : triv E = false -> vec_rep m v xs -> i < length xs ->
  vec_insert E v i a m = UB DeadObject.
Proof.
  intros Ht Hr Hi. assert (Hs : v_size v = length xs) by (by destruct Hr).
  unfold vec_insert. rewrite decide_False by lia.
  assert (exists v1 m1, (if decide (v_cap v <= v_size v + 1)
     then vec_reserve E v (if decide (v_cap v = 0) then 2 else 2 * v_cap v) m
     else Ok (v, m)) = Ok (v1, m1) /\ vec_rep m1 v1 xs /\
     length xs + 1 < v_cap v1) as (v1 & m1 & -> & Hr1 & Hc1).
  { case_decide as Hc.
    - destruct (vec_reserve_rep m v xs (if decide (v_cap v = 0) then 2 else 2 * v_cap v) Hr)
        as (v1 & m1 & Eq & Hr1 & Hf & Hc' & _).
      exists v1, m1. split_and!; try done.
      destruct (vec_rep_cap _ _ _ Hr) as [(-> & H & _)|H]; simpl in *; case_decide; lia.
    - exists v, m. split_and!; try done; lia. }
  cbn [bind]. destruct Hr1 as [Hs1 [(Hd & -> & Hc)|(b & rest & Hd & Hb & Hv & Hc & H1)]].
  { simpl in *; lia. }
  destruct rest as [|c0 rest]; [simpl in *; lia|]. apply Forall_cons in Hv as [Hvc _].
  destruct Hvc as [->|?]; [|congruence].
  rewrite Hs1, Hd. destruct (length xs) as [|k] eqn:Hlen; [lia|]. cbn [for_down].
  rewrite decide_True by lia.
  destruct (lookup_lt_is_Some_2 xs k) as [x Hx]; [lia|].
  unfold pmove_out, passign, with_ptr.
  rewrite (move_out_live E m1 b _ k x Hb) by (by apply lookup_live_app). cbn [bind].
  unfold assign. erewrite with_block_blk by (by eapply blk_upd).
  rewrite list_lookup_insert_ne by lia.
  rewrite lookup_app_r by (rewrite fmap_length; lia). rewrite fmap_length.
  replace (S k - length xs) with 0 by lia. simpl. by rewrite Ht.
Qed.

Lemma vec_erase_class m v xs i : triv E = false -> vec_rep m v xs -> S i < length xs ->
  vec_erase E v i m = UB DeadObject.
Proof.
  intros Ht [Hs [(Hd & -> & Hc)|(b & rest & Hd & Hb & Hv & Hc & H1)]] Hi; [simpl in *; lia|].
  unfold vec_erase. rewrite decide_False by lia.
  destruct (lookup_lt_is_Some_2 xs i) as [x Hx]; [lia|].
  destruct (lookup_lt_is_Some_2 xs (i + 1)) as [y Hy]; [lia|].
  rewrite Hd. unfold pdestroy, with_ptr.
  rewrite (destroy_live E m b _ i x Hb) by (by apply lookup_live_app). cbn [bind].
  unfold dead. rewrite Ht.
  destruct (v_size v - 1 - i) as [|k] eqn:Hk; [lia|]. cbn [for_up].
  unfold pmove_out, passign, with_ptr.
  erewrite (move_out_live E _ b _ (i + 1) y); [|by eapply blk_upd|].
  2:{ rewrite list_lookup_insert_ne by lia. by apply lookup_live_app. }
  cbn [bind]. rewrite upd_upd. unfold assign. erewrite with_block_blk by (by eapply blk_upd).
  rewrite list_lookup_insert_ne by lia.
  rewrite list_lookup_insert; [by rewrite Ht|].
  rewrite app_length, fmap_length. lia.
Qed.

(** ** One operation, a history *)
Definition op_fits (o : @vop A) xs : Prop := triv E = true \/ at_end o xs = true.

Lemma vec_step_rep o m v xs : vec_rep m v xs -> op_fits o xs ->
  match list_op o xs with
  | LOk ys => exists v' m', vec_step E o v m = Ok (v', m') /\ vec_rep m' v' ys /\ frame m v m' v'
  | LThrow => vec_step E o v m = Throw
  | LUndef => True
  end.
Proof.
  intros Hr Hop. assert (Hs : v_size v = length xs) by (by destruct Hr).
  destruct o as [a| |i a|i| |k| |i a]; simpl.
  - by apply vec_push_rep.
  - destruct xs as [|x xs'].
    { unfold vec_pop. by rewrite decide_True. }
    assert (Hne : x :: xs' <> []) by done. revert Hr. rewrite (app_removelast_last x Hne) at 1.
    intros Hr. by apply vec_rep_w, vec_pop_rep in Hr.
  - case_decide as Hi.
    + apply vec_insert_rep; [done|done|]. destruct Hop as [?|H]; [by left|right].
      simpl in H. apply bool_decide_eq_true in H. lia.
    + unfold vec_insert. by rewrite decide_True by lia.
  - case_decide as Hi.
    + apply vec_erase_rep; [by apply vec_rep_w|done|]. destruct Hop as [?|H]; [by left|right].
      simpl in H. apply bool_decide_eq_true in H. lia.
    + unfold vec_erase. by rewrite decide_True by lia.
  - destruct (vec_clear_rep m v xs Hr) as (v' & m' & ? & ? & ? & _). eauto.
  - destruct (vec_reserve_rep m v xs k Hr) as (v' & m' & ? & ? & ? & _). eauto 6.
  - destruct (vec_shrink_rep m v xs Hr) as (v' & m' & ? & ? & ? & _). eauto 6.
  - case_decide as Hi; [|done].
    destruct (vec_set_rep m v xs i a Hr Hi) as (m' & -> & Hr' & Hf). simpl. eauto 6.
Qed.

Lemma vec_run_rep ops : forall m v xs ts ys, vec_rep m v xs ->
  triv E = true \/ all_at_end ops xs = true ->
  list_run ops xs = Some (ts, ys) ->
  exists v' m', vec_run E ops v m = Ok (ts, v', m') /\ vec_rep m' v' ys /\ frame m v m' v'.
Proof.
  induction ops as [|o ops IH]; intros m v xs ts ys Hr Hop Hl; simpl in *.
  - injection Hl as <- <-. exists v, m. split; [done|]. split; [done|]. apply frame_refl.
  - assert (Hfit : op_fits o xs).
    { destruct Hop as [?|H]; [by left|right]. by apply andb_true_iff in H as [? _]. }
    pose proof (vec_step_rep o m v xs Hr Hfit) as Hst.
    destruct (list_op o xs) as [l'| |] eqn:Eo; [..|done].
    + destruct Hst as (v1 & m1 & -> & Hr1 & Hf1).
      destruct (list_run ops l') as [[ts' f]|] eqn:El; [|done]. injection Hl as <- <-.
      destruct (IH m1 v1 l' ts' f Hr1) as (v2 & m2 & -> & Hr2 & Hf2); [|done|].
      { destruct Hop as [?|H]; [by left|right]. by apply andb_true_iff in H as [_ ?]. }
      simpl. exists v2, m2. split; [done|]. split; [done|]. by eapply frame_trans.
    + rewrite Hst. destruct (list_run ops xs) as [[ts' f]|] eqn:El; [|done]. injection Hl as <- <-.
      destruct (IH m v xs ts' f Hr) as (v2 & m2 & -> & Hr2 & Hf2); [|done|].
      { destruct Hop as [?|H]; [by left|right]. by apply andb_true_iff in H as [_ ?]. }
      simpl. exists v2, m2. done.
Qed.

(** ** Destruction *)
Lemma vec_destroy_rep m v xs : vec_rep m v xs -> exists m', vec_destroy E v m = Ok m' /\
  leaks m' = leaks m /\ allocations m' + held v = allocations m /\
  (forall b cs, v_data v <> Blk b -> blk m b cs -> blk m' b cs) /\
  length (blocks m') = length (blocks m).
Proof.
  intros Hr. unfold vec_destroy.
  destruct (destroy_all_rep m v xs Hr) as [(Hd & -> & Hc & Eq)|
    (b & rest & Hd & Hv & Hl & H1 & (cs & Hb) & Eq)].
  - rewrite Hd. exists m. unfold held. rewrite Hd. split_and!; auto.
  - rewrite Hd in *. rewrite Eq. cbn [bind].
    assert (Hb2 : blk (upd m b rest) b rest) by (by eapply blk_upd).
    rewrite (free_ok E _ b rest Hb2).
    2:{ destruct (triv E) eqn:Ht; [by left|right].
        eapply Forall_impl; [exact Hv|]. intros c [?|?]; [done|congruence]. }
    eexists. split; [done|]. split; [done|]. split.
    { pose proof (allocations_free _ b rest (leaks (upd m b rest)) Hb2) as Hf.
      rewrite (allocations_upd m b cs) in Hf by done. unfold held. rewrite Hd. lia. }
    split. { intros b' cs' Hne Hb'. assert (b' <> b) by congruence. unfold blk; simpl.
      rewrite !list_lookup_insert_ne by done. done. }
    simpl. by rewrite !insert_length.
Qed.

(** ** Construction from values *)
Lemma vec_of_list_rep xs m : exists v m', vec_of_list E xs m = Ok (v, m') /\ vec_rep m' v xs /\
  frame m vec_new m' v /\ held v = 1.
Proof.
  unfold vec_of_list. destruct (alloc m (length xs + 1)) as [b m1] eqn:Ea.
  assert (Hb1 := alloc_blk _ _ _ _ Ea). assert (Hca := allocations_alloc _ _ _ _ Ea).
  assert (Hold := fun b' cs => alloc_old _ _ _ _ b' cs Ea).
  assert (Heb : b = length (blocks m)) by (by injection Ea).
  assert (Hl1 : leaks m1 = leaks m) by (injection Ea as _ <-; done).
  assert (Hlen1 : length (blocks m1) = S (length (blocks m))).
  { injection Ea as _ <-. simpl. rewrite app_length. simpl. lia. }
  assert (Hb2 := Hb1).
  rewrite replicate_add in Hb2.
  rewrite (fill_loop E _ m1 b xs (replicate (length xs) Raw) (replicate 1 Raw) Hb2);
    [|by rewrite replicate_length|apply forall_replicate_raw|].
  2:{ intros i x cs Hx. unfold get. by rewrite Hx. }
  cbn [bind]. eexists _, _. split; [done|]. split.
  - split; [done|]. right. exists b, [Raw]. simpl.
    split_and!; try done; [by eapply blk_upd|].
    apply Forall_singleton. by left.
  - split; [|done]. split; [done|]. split.
    { intros b' cs _ Hb'. destruct (Hold _ _ Hb') as [? Hne]. split; [by apply blk_upd_ne|].
      simpl. congruence. }
    split; [simpl; intros b' [= <-]; right; lia|]. split; [rewrite length_upd; lia|].
    rewrite (allocations_upd _ _ _ _ Hb1). unfold held; simpl. lia.
Qed.

(** ** Copy construction *)
Lemma vec_copy_rep m v xs b0 : vec_rep m v xs -> v_data v = Blk b0 -> exists c m',
  vec_copy E v m = Ok (c, m') /\ vec_rep m' c xs /\ vec_rep m' v xs /\ disj v c /\
  frame m vec_new m' c /\ held c = 1.
Proof.
  intros [Hs [(Hd & -> & Hc)|(bo & rest & Hd & Hb & Hv & Hc & H1)]] Hd0; [congruence|].
  unfold vec_copy. rewrite Hd.
  destruct (alloc m (v_cap v)) as [b m1] eqn:Ea.
  assert (Hb1 := alloc_blk _ _ _ _ Ea). assert (Hca := allocations_alloc _ _ _ _ Ea).
  assert (Hold := fun b' cs => alloc_old _ _ _ _ b' cs Ea).
  assert (Heb : b = length (blocks m)) by (by injection Ea).
  assert (Hl1 : leaks m1 = leaks m) by (injection Ea as _ <-; done).
  assert (Hlen1 : length (blocks m1) = S (length (blocks m))).
  { injection Ea as _ <-. simpl. rewrite app_length. simpl. lia. }
  destruct (Hold _ _ Hb) as [Hbo1 Hne].
  assert (Hb2 := Hb1). rewrite Hc, replicate_add in Hb2. rewrite Hs.
  rewrite (fill_loop E _ m1 b xs (replicate (length xs) Raw) (replicate (length rest) Raw) Hb2);
    [|by rewrite replicate_length|apply forall_replicate_raw|].
  2:{ intros i x cs Hx. unfold pread, with_ptr.
      rewrite (read_ok _ bo ((Live <$> xs) ++ rest) i x); [done| |by apply lookup_live_app].
      by apply blk_upd_ne. }
  cbn [bind]. eexists _, _. split; [done|]. split.
  { split; [done|]. right. exists b, (replicate (length rest) Raw). simpl. rewrite replicate_length.
    split_and!; try done; [by eapply blk_upd|apply forall_replicate_raw]. }
  split.
  { split; [done|]. right. exists bo, rest. split_and!; try done. by apply blk_upd_ne. }
  split. { intros b' Hb' Hb''. simpl in Hb''. congruence. }
  split; [|done]. split; [done|]. split.
  { intros b' cs _ Hb'. destruct (Hold _ _ Hb') as [? Hne']. split; [by apply blk_upd_ne|].
    simpl. congruence. }
  split; [simpl; intros b' [= <-]; right; lia|]. split; [rewrite length_upd; lia|].
  rewrite (allocations_upd _ _ _ _ Hb1). unfold held; simpl. lia.
Qed.

(** ** Move assignment *)
Lemma vec_move_assign_rep m v w xs ys : vec_rep m v xs -> vec_rep m w ys -> disj v w ->
  exists m', vec_move_assign E v w m = Ok (w, vec_new, m') /\ vec_rep m' w ys /\
    leaks m' = leaks m /\ allocations m' + held v = allocations m /\
    (forall b cs, v_data v <> Blk b -> blk m b cs -> blk m' b cs) /\
    length (blocks m') = length (blocks m).
Proof.
  intros Hv Hw Hd. destruct (vec_destroy_rep m v xs Hv) as (m' & Eq & Hl & Ha & Hb & Hlen).
  assert (Em : vec_move_assign E v w m = Ok (w, vec_new, m')).
  { unfold vec_move_assign. unfold vec_destroy in Eq. destruct w as [dw sw cw]. simpl.
    destruct Hv as [Hs [(Hn & -> & Hc)|(b & rest & Hdb & _)]].
    - rewrite Hn in *. rewrite Hs. simpl. by injection Eq as ->.
    - rewrite Hdb in *. destruct (destroy_all E (Blk b) (v_size v) m) as [m1| | |]; try done.
      cbn [bind] in *. unfold pfree. by rewrite Eq. }
  exists m'. split; [done|]. split; [|split_and!; done].
  apply (vec_rep_mono m); [|done]. intros b cs Hwb Hbk. apply Hb; [|done].
  intros Hvb. by apply (Hd b).
Qed.

(** ** Copy assignment *)
Lemma vec_copy_assign_rep m v w xs ys : vec_rep m v xs -> vec_rep m w ys -> disj w v ->
  (v_cap v < length ys + 1 /\ (triv E = true \/ xs = [])) \/
    (length ys + 1 <= v_cap v /\ length xs = length ys) ->
  exists v' m', vec_copy_assign E v w m = Ok (v', m') /\ vec_rep m' v' ys /\ vec_rep m' w ys /\
    disj w v' /\ frame m v m' v'.
Proof.
  intros Hv Hw Hd Hcase. assert (Hs : v_size v = length xs) by (by destruct Hv).
  assert (Hsw : v_size w = length ys) by (by destruct Hw).
  unfold vec_copy_assign.
  assert (Hmid : exists s b cs m2,
    (let* m1 := destroy_all E (v_data v) (v_size v) m in
     if decide (v_cap v < v_size w + 1) then vec_resize E v (v_size w) m1 else Ok (v, m1)) = Ok (s, m2) /\
    v_data s = Blk b /\ v_size s = length ys /\ blk m2 b cs /\ Forall (vacant E) cs /\
    length cs = v_cap s /\ length ys + 1 <= v_cap s /\ frame m v m2 s).
  { destruct Hcase as [[Hc Htx]|[Hc He]].
    - assert (Ed : destroy_all E (v_data v) (v_size v) m = Ok m).
      { destruct Htx as [Ht| ->]; [|by rewrite Hs].
        destruct Hv as [_ [(_ & -> & _)|(b & rest & Hdb & Hb & _)]]; [by rewrite Hs|].
        rewrite Hdb, Hs. unfold destroy_all.
        rewrite (destroy_loop E _ m b xs rest Hb) by done.
        unfold dead. rewrite Ht. rewrite (list_fmap_id (Live <$> xs)). by rewrite upd_same. }
      rewrite Ed. cbn [bind]. rewrite decide_True by lia. unfold vec_resize. rewrite decide_True by lia.
      destruct (vec_reserve_rep m v xs (v_size w + 1) Hv) as (s & m2 & -> & Hr2 & Hf & Hc2 & _).
      cbn [bind]. destruct Hr2 as [Hs2 [(Hn & -> & Hc3)|(b & rest & Hdb & Hb & Hvr & Hc3 & H1)]]; [lia|].
      eexists _, b, ((Live <$> xs) ++ rest), m2. split; [done|]. simpl.
      split_and!; try done.
      + apply Forall_app. split; [|done]. destruct Htx as [Ht| ->]; [|constructor].
        apply Forall_fmap, Forall_true. intros c. by right.
      + rewrite app_length, fmap_length. lia.
      + lia.
    - destruct (destroy_all_rep m v xs Hv) as [(Hdn & -> & Hcn & ->)|
        (b & rest & Hdb & Hvr & Hl & H1 & (cs & Hb) & ->)]; [lia|].
      cbn [bind]. rewrite decide_False by lia.
      eexists _, b, rest, _. split; [done|]. split_and!; try done; [lia|by eapply blk_upd|].
      destruct v as [d s c]. simpl in Hdb. subst d. by eapply frame_upd. }
  destruct Hmid as (s & b & cs & m2 & Eq & Hds & Hss & Hbs & Hvs & Hls & Hcs & Hf).
  destruct (destroy_all E (v_data v) (v_size v) m) as [m1| | |]; try done. cbn [bind] in Eq |- *.
  rewrite Eq. cbn [bind]. rewrite Hsw, Hds.
  destruct (frame_other _ _ _ _ _ _ Hf Hw Hd) as [Hw2 Hd2].
  assert (Hbs' : blk m2 b (take (length ys) cs ++ drop (length ys) cs)) by (by rewrite take_drop).
  rewrite (fill_loop E _ m2 b ys (take (length ys) cs) (drop (length ys) cs) Hbs');
    [|rewrite take_length; lia|by apply Forall_take|].
  2:{ intros i y cs' Hy. unfold pconstruct, with_ptr at 1.
      assert (Hw3 : vec_rep (upd m2 b cs') w ys).
      { apply (vec_rep_mono m2); [|done]. intros b' cs'' Hb' Hbk. apply blk_upd_ne; [|done].
        intros ->. by apply (Hd2 b). }
      change (pread (upd m2 b cs') (v_data w) i) with (vec_get w i (upd m2 b cs')).
      by rewrite (vec_rep_get _ _ _ _ _ Hw3 Hy). }
  cbn [bind]. set (cs2 := (Live <$> ys) ++ drop (length ys) cs).
  assert (Hf2 : frame m2 s (upd m2 b cs2) s).
  { destruct s as [d z c]. simpl in Hds. subst d. by eapply frame_upd. }
  destruct (frame_other _ _ _ _ _ _ Hf2 Hw2 Hd2) as [Hw3 Hd3].
  eexists s, _. split; [done|]. split; [|split; [done|split; [done|by eapply frame_trans]]].
  split; [done|]. right. exists b, (drop (length ys) cs). rewrite drop_length.
  split_and!; try done; [by eapply blk_upd|by apply Forall_drop|lia|lia].
Qed.

(** For a trivial type with enough capacity the first elements are overwritten and the size
    stays what it was. *)
Lemma vec_copy_assign_keeps m v w xs ys : triv E = true -> vec_rep m v xs -> vec_rep m w ys ->
  disj w v -> length ys + 1 <= v_cap v -> length ys <= length xs ->
  exists m', vec_copy_assign E v w m = Ok (v, m') /\
    vec_rep m' v (ys ++ drop (length ys) xs).
Proof.
  intros Ht Hv Hw Hd Hc Hle. assert (Hs : v_size v = length xs) by (by destruct Hv).
  assert (Hsw : v_size w = length ys) by (by destruct Hw).
  destruct Hv as [_ [(_ & -> & ?)|(b & rest & Hdb & Hb & Hvr & Hcap & H1)]]; [lia|].
  unfold vec_copy_assign. rewrite Hdb, Hs. unfold destroy_all.
  rewrite (destroy_loop E _ m b xs rest Hb) by done.
  unfold dead. rewrite Ht. rewrite (list_fmap_id (Live <$> xs)). rewrite upd_same by done.
  cbn [bind]. rewrite decide_False by lia. cbn [bind]. rewrite Hsw, Hdb.
  assert (Hb' : blk m b ((Live <$> take (length ys) xs) ++ (Live <$> drop (length ys) xs) ++ rest)).
  { by rewrite (assoc_L (++)), <- fmap_app, take_drop. }
  rewrite (fill_loop E _ m b ys _ _ Hb'); [|rewrite fmap_length, take_length; lia|..].
  2:{ apply Forall_fmap, Forall_true. intros c. by right. }
  2:{ intros i y cs' Hy. unfold pconstruct, with_ptr at 1.
      assert (Hw3 : vec_rep (upd m b cs') w ys).
      { apply (vec_rep_mono m); [|done]. intros b' cs'' Hbb Hbk. apply blk_upd_ne; [|done].
        intros ->. by apply (Hd b). }
      change (pread (upd m b cs') (v_data w) i) with (vec_get w i (upd m b cs')).
      by rewrite (vec_rep_get _ _ _ _ _ Hw3 Hy). }
  cbn [bind]. eexists. split; [done|].
  assert (length (ys ++ drop (length ys) xs) = length xs) as Hl.
  { rewrite app_length, drop_length. lia. }
  split; [congruence|]. right. exists b, rest. rewrite Hl.
  rewrite fmap_app, <- (assoc_L (++)). split_and!; try done. by eapply blk_upd.
Qed.

(** ** Equality *)
Lemma vec_eq_rep ne m v w xs ys : (forall a b, ne a b = false <-> a = b) ->
  vec_rep m v xs -> vec_rep m w ys ->
  exists r, vec_eq ne v w m = Ok r /\ (r = true <-> xs = ys).
Proof.
  intros Hne Hv Hw. assert (Hs : v_size v = length xs) by (by destruct Hv).
  assert (Hsw : v_size w = length ys) by (by destruct Hw).
  unfold vec_eq. case_decide as Hsz.
  { exists false. split; [done|]. split; [done|]. intros ->. congruence. }
  assert (HH : wp (loop (S (v_size v)) (fun i =>
      if decide (i < v_size v) then
        let* x := pread m (v_data v) i in
        let* y := pread m (v_data w) i in
        if ne x y then Ok (inr false) else Ok (inl (S i))
      else Ok (inr true)) 0) (fun r => r = true <-> xs = ys)).
  { apply (wp_loop (fun i => i <= length xs /\ take i xs = take i ys) (fun i => v_size v - i)); [lia|..].
    { split; [lia|]. by rewrite !take_0. }
    intros i [Hi Ht]. case_decide as Hlt.
    - destruct (lookup_lt_is_Some_2 xs i) as [x Hx]; [lia|].
      destruct (lookup_lt_is_Some_2 ys i) as [y Hy]; [lia|].
      change (pread m (v_data v) i) with (vec_get v i m). change (pread m (v_data w) i) with (vec_get w i m).
      rewrite (vec_rep_get _ _ _ _ _ Hv Hx), (vec_rep_get _ _ _ _ _ Hw Hy). cbn [bind].
      destruct (ne x y) eqn:En; apply wp_ok.
      + split; [done|]. intros ->. assert (x = y) as Hxy by congruence.
        apply Hne in Hxy. congruence.
      + assert (x = y) as -> by (by apply Hne).
        split; [|lia]. split; [lia|]. erewrite !take_S_r by done. by rewrite Ht.
    - apply wp_ok. split; [|done]. intros _.
      rewrite <- (firstn_all xs), <- (firstn_all ys). replace (length xs) with i by lia.
      replace (length ys) with i by lia. done. }
  destruct HH as (r & -> & Hr). exists r. done.
Qed.

(** ** Several vectors *)
Definition has_flag v (f : bool) : Prop := held v = if f then 1 else 0.
Definition item m v (p : list A * bool) : Prop := vec_rep m v p.1 /\ has_flag v p.2.

Definition sys_inv (m0 m : mem A) (vs : list vec) (ls : list (list A * bool)) : Prop :=
  Forall2 (item m) vs ls /\
  (forall i j v w, vs !! i = Some v -> vs !! j = Some w -> i <> j -> disj v w) /\
  leaks m = leaks m0 /\ allocations m = allocations m0 + sum_list (held <$> vs).

Lemma sum_list_insert (l : list nat) i x y : l !! i = Some x ->
  sum_list (<[i := y]> l) + x = sum_list l + y.
Proof.
  revert i. induction l as [|a l IH]; intros [|i] H; simpl in *; try done.
  - injection H as ->. lia.
  - specialize (IH i H). lia.
Qed.

Lemma held_flag m v xs : vec_rep m v xs -> held v = 1 <-> exists b, v_data v = Blk b.
Proof.
  unfold held. destruct (v_data v); split; try done; eauto; by intros [? ?].
Qed.

Lemma disj_sym v w : disj v w -> disj w v.
Proof. intros H b Hw Hv. by apply (H b). Qed.

(** Replacing vector [i] by the result of an operation on it. *)
Lemma sys_inv_replace m0 m vs ls i v p m' v' p' :
  sys_inv m0 m vs ls -> vs !! i = Some v -> ls !! i = Some p ->
  frame m v m' v' -> item m' v' p' -> sys_inv m0 m' (<[i := v']> vs) (<[i := p']> ls).
Proof.
  intros (Hit & Hdj & Hl & Ha) Hv Hp Hf Hi'. assert (Hlt := lookup_lt_Some _ _ _ Hv).
  assert (Hoth : forall j w q, j <> i -> vs !! j = Some w -> ls !! j = Some q ->
            item m' w q /\ disj w v').
  { intros j w q Hj Hw Hq. destruct (Forall2_lookup_lr _ _ _ _ _ _ Hit Hw Hq) as [Hr Hfl].
    destruct (frame_other _ _ _ _ _ _ Hf Hr (Hdj _ _ _ _ Hw Hv Hj)) as [? ?]. done. }
  split.
  { apply Forall2_same_length_lookup_2.
    { rewrite !insert_length. by eapply Forall2_length. }
    intros j w q Hw Hq. destruct (decide (j = i)) as [->|Hj].
    - rewrite list_lookup_insert in Hw by done.
      rewrite list_lookup_insert in Hq by (by eapply lookup_lt_Some). congruence.
    - rewrite list_lookup_insert_ne in Hw by done. rewrite list_lookup_insert_ne in Hq by done. by destruct (Hoth j w q). }
  split.
  { assert (Hhalf : forall j w, j <> i -> vs !! j = Some w -> disj w v').
    { intros j w Hj Hw. destruct (Forall2_lookup_l _ _ _ _ _ Hit Hw) as (q & Hq & _).
      by destruct (Hoth j w q). }
    intros j k w1 w2 H1 H2 Hjk.
    destruct (decide (j = i)) as [->|Hj]; destruct (decide (k = i)) as [->|Hk]; [done|..].
    - rewrite list_lookup_insert in H1 by done. rewrite list_lookup_insert_ne in H2 by done.
      injection H1 as <-. apply disj_sym. by eapply Hhalf.
    - rewrite list_lookup_insert in H2 by done. rewrite list_lookup_insert_ne in H1 by done.
      injection H2 as <-. by eapply Hhalf.
    - rewrite list_lookup_insert_ne in H1 by done. rewrite list_lookup_insert_ne in H2 by done. by eapply Hdj. }
  destruct Hf as (Hl' & _ & _ & _ & Hc). split; [congruence|].
  rewrite list_fmap_insert.
  pose proof (sum_list_insert (held <$> vs) i (held v) (held v')) as Hsum.
  rewrite list_lookup_fmap, Hv in Hsum. specialize (Hsum eq_refl). lia.
Qed.

(** A new vector. *)
Lemma sys_inv_add m0 m vs ls m' v' p' :
  sys_inv m0 m vs ls -> frame m vec_new m' v' -> item m' v' p' ->
  sys_inv m0 m' (vs ++ [v']) (ls ++ [p']).
Proof.
  intros (Hit & Hdj & Hl & Ha) Hf Hi'.
  assert (Hoth : forall j w q, vs !! j = Some w -> ls !! j = Some q -> item m' w q /\ disj w v').
  { intros j w q Hw Hq. destruct (Forall2_lookup_lr _ _ _ _ _ _ Hit Hw Hq) as [Hr Hfl].
    destruct (frame_other _ _ _ _ _ _ Hf Hr) as [? ?]; [|done]. by intros b _ ?. }
  split.
  { apply Forall2_app; [|by constructor]. apply Forall2_same_length_lookup_2.
    { by eapply Forall2_length. }
    intros j w q Hw Hq. by destruct (Hoth j w q). }
  split.
  { assert (Hhalf : forall j w, vs !! j = Some w -> disj w v').
    { intros j w Hw. destruct (Forall2_lookup_l _ _ _ _ _ Hit Hw) as (q & Hq & _).
      by destruct (Hoth j w q). }
    intros j k w1 w2 H1 H2 Hjk.
    apply lookup_app_Some in H1 as [H1|[Hj1 H1]]; apply lookup_app_Some in H2 as [H2|[Hj2 H2]].
    - by eapply Hdj.
    - apply list_lookup_singleton_Some in H2 as [? <-]. by eapply Hhalf.
    - apply list_lookup_singleton_Some in H1 as [? <-]. apply disj_sym. by eapply Hhalf.
    - apply list_lookup_singleton_Some in H1 as [? <-]. apply list_lookup_singleton_Some in H2 as [? <-].
      lia. }
  destruct Hf as (Hl' & _ & _ & _ & Hc). split; [congruence|].
  rewrite fmap_app, sum_list_with_app. change (held vec_new) with 0 in Hc.
  change (sum_list (held <$> [v'])) with (held v' + 0). lia.
Qed.

(** Two vectors exchange their contents. *)
Lemma sys_inv_swap m0 m vs ls i j v w p q : sys_inv m0 m vs ls ->
  vs !! i = Some v -> vs !! j = Some w -> ls !! i = Some p -> ls !! j = Some q -> i <> j ->
  sys_inv m0 m (<[i := w]> (<[j := v]> vs)) (<[i := q]> (<[j := p]> ls)).
Proof.
  intros (Hit & Hdj & Hl & Ha) Hv Hw Hp Hq Hij.
  pose (sw := fun k : nat => if decide (k = i) then j else if decide (k = j) then i else k).
  assert (Hsw : forall {B} (l : list B) x y k, l !! i = Some x -> l !! j = Some y ->
             <[i := y]> (<[j := x]> l) !! k = l !! sw k).
  { intros B l x y k Hx Hy. unfold sw. assert (Hlx := lookup_lt_Some _ _ _ Hx).
    assert (Hly := lookup_lt_Some _ _ _ Hy). case_decide as H1.
    - subst k. rewrite list_lookup_insert by (by rewrite insert_length). done.
    - rewrite list_lookup_insert_ne by done. case_decide as H2.
      + subst k. by rewrite list_lookup_insert by done.
      + by rewrite list_lookup_insert_ne by done. }
  split.
  { apply Forall2_same_length_lookup_2.
    { rewrite !insert_length. by eapply Forall2_length. }
    intros k v' q' Hv' Hq'. rewrite (Hsw _ _ _ _ _ Hv Hw) in Hv'. rewrite (Hsw _ _ _ _ _ Hp Hq) in Hq'.
    exact (Forall2_lookup_lr _ _ _ _ _ _ Hit Hv' Hq'). }
  split.
  { intros k l v1 v2 H1 H2 Hkl. rewrite (Hsw _ _ _ _ _ Hv Hw) in H1. rewrite (Hsw _ _ _ _ _ Hv Hw) in H2.
    apply (Hdj _ _ _ _ H1 H2). unfold sw. repeat case_decide; congruence. }
  split; [done|]. rewrite !list_fmap_insert.
  pose proof (sum_list_insert (held <$> vs) j (held w) (held v)) as Hs1.
  rewrite list_lookup_fmap, Hw in Hs1. specialize (Hs1 eq_refl).
  pose proof (sum_list_insert (<[j := held v]> (held <$> vs)) i (held v) (held w)) as Hs2.
  rewrite list_lookup_insert_ne, list_lookup_fmap, Hv in Hs2 by done. specialize (Hs2 eq_refl). lia.
Qed.

Lemma flag_obtains o m v xs ys v' m' f : vec_rep m v xs -> list_op o xs = LOk ys ->
  vec_step E o v m = Ok (v', m') -> has_flag v f -> vec_rep m' v' ys ->
  has_flag v' (f || obtains o).
Proof.
  intros Hr Ho Hst Hfl Hr'. unfold has_flag in *.
  assert (Hkeep : v_data v' = v_data v -> obtains o = false -> held v' = (if f || obtains o then 1 else 0)).
  { intros Hd ->. rewrite orb_false_r. unfold held in *. by rewrite Hd. }
  assert (Hown : ys <> [] -> held v' = 1).
  { intros Hne. destruct Hr' as [_ [(_ & -> & _)|(b & ? & Hd & _)]]; [done|]. unfold held. by rewrite Hd. }
  destruct o as [a| |i a|i| |k| |i a]; simpl in *.
  - rewrite orb_true_r. apply Hown. injection Ho as <-. by destruct xs.
  - apply Hkeep; [|done]. unfold vec_pop in Hst. case_decide; [done|].
    destruct (pdestroy _ _ _ _); try done. simpl in Hst. by injection Hst as <- _.
  - rewrite orb_true_r. apply Hown. case_decide; [|done]. injection Ho as <-. by destruct (take i xs).
  - apply Hkeep; [|done]. unfold vec_erase in Hst. case_decide; [done|].
    destruct (pdestroy _ _ _ _); try done. simpl in Hst.
    destruct (for_up _ _ _ _); try done. simpl in Hst. by injection Hst as <- _.
  - apply Hkeep; [|done]. unfold vec_clear in Hst.
    destruct (destroy_all _ _ _ _); try done. simpl in Hst. by injection Hst as <- _.
  - destruct (vec_reserve_rep m v xs k Hr) as (v1 & m1 & Eq & Hr1 & _ & Hc1 & _).
    rewrite Eq in Hst. injection Hst as <- <-.
    destruct (bool_decide (0 < k)) eqn:Hk.
    + rewrite orb_true_r. apply bool_decide_eq_true in Hk.
      destruct Hr1 as [_ [(_ & _ & Hc)|(b & ? & Hd & _)]]; [lia|]. unfold held. by rewrite Hd.
    + apply bool_decide_eq_false in Hk. rewrite orb_false_r.
      unfold vec_reserve in Eq. rewrite decide_False in Eq by lia. by injection Eq as <- _.
  - rewrite orb_true_r.
    destruct (vec_shrink_rep m v xs Hr) as (v1 & m1 & Eq & Hr1 & _ & Hc1).
    rewrite Eq in Hst. injection Hst as <- <-.
    destruct Hr1 as [_ [(_ & _ & Hc)|(b & ? & Hd & _)]]; [lia|]. unfold held. by rewrite Hd.
  - apply Hkeep; [|done]. destruct (vec_set _ _ _ _ _); try done. simpl in Hst. by injection Hst as <- _.
Qed.

Lemma get_some {B} (l : list B) i x : l !! i = Some x -> get l i = Ok x.
Proof. intros H. unfold get. by rewrite H. Qed.

(** Moving the contents of [v] out: who owns what changes, the memory does not. *)
Lemma item_new m : item m vec_new ([], false).
Proof. split; [apply vec_rep_new|done]. Qed.

Lemma sys_step_inv m0 m vs ls o ls' : sys_inv m0 m vs ls -> lists_step o ls = Some ls' ->
  triv E = true \/ match o with
      | SOp i o' => match ls !! i with Some (xs, _) => at_end o' xs | None => true end
      | _ => true end = true ->
  (exists vs' m', sys_step E o vs m = Ok (vs', m') /\ sys_inv m0 m' vs' ls') \/
  (sys_step E o vs m = Throw /\ ls' = ls).
Proof.
  intros Hinv Hls Hend. destruct (Hinv) as (Hit & Hdj & Hl & Ha).
  destruct o as [|xs|i|i|i j|i o]; simpl in *.
  - injection Hls as <-. left. eexists _, _. split; [done|].
    apply sys_inv_add with m; [done|apply frame_refl|apply item_new].
  - injection Hls as <-. left. destruct (vec_of_list_rep xs m) as (v & m1 & -> & Hr & Hf & Hh).
    cbn [bind]. eexists _, _. split; [done|]. apply sys_inv_add with m; [done|done|].
    by split.
  - destruct (ls !! i) as [[xs [|]]|] eqn:Hi; try done. injection Hls as <-. left.
    destruct (Forall2_lookup_r _ _ _ _ _ Hit Hi) as (v & Hv & Hr & Hfl). simpl in Hr, Hfl.
    rewrite (get_some _ _ _ Hv). cbn [bind].
    apply (held_flag _ _ _ Hr) in Hfl as [b Hd].
    destruct (vec_copy_rep m v xs b Hr Hd) as (c & m1 & Eq & Hc & _ & _ & Hf & Hh). rewrite Eq. cbn [bind].
    eexists _, _. split; [done|]. apply sys_inv_add with m; [done|done|]. by split.
  - destruct (ls !! i) as [p|] eqn:Hi; [|done]. injection Hls as <-. left.
    destruct (Forall2_lookup_r _ _ _ _ _ Hit Hi) as (v & Hv & Hr & Hfl).
    rewrite (get_some _ _ _ Hv). cbn [bind]. eexists _, _. split; [done|].
    assert (Hadd : sys_inv m0 m (vs ++ [vec_new]) (ls ++ [([], false)])).
    { apply sys_inv_add with m; [done|apply frame_refl|apply item_new]. }
    assert (Hlen := Forall2_length _ _ _ Hit).
    assert (Hlv := lookup_lt_Some _ _ _ Hv). assert (Hll := lookup_lt_Some _ _ _ Hi).
    pose proof (sys_inv_swap _ _ _ _ i (length vs) v vec_new p ([], false) Hadd) as Hsw.
    rewrite !(insert_app_r_alt _ _ (length vs)) in Hsw by lia.
    rewrite Nat.sub_diag in Hsw. rewrite Hlen, Nat.sub_diag in Hsw. simpl in Hsw.
    rewrite !insert_app_l in Hsw by lia. destruct v as [d sz c]. apply Hsw.
    + by apply lookup_app_l_Some.
    + rewrite <- Hlen. by apply list_lookup_middle.
    + by apply lookup_app_l_Some.
    + by apply list_lookup_middle.
    + lia.
  - destruct (ls !! i) as [pi|] eqn:Hi; [|done]. destruct (ls !! j) as [pj|] eqn:Hj; [|done].
    injection Hls as <-. left. case_decide as Hij; [by eexists _, _|].
    destruct (Forall2_lookup_r _ _ _ _ _ Hit Hi) as (v & Hv & Hrv & Hfv).
    destruct (Forall2_lookup_r _ _ _ _ _ Hit Hj) as (w & Hw & Hrw & Hfw).
    rewrite (get_some _ _ _ Hv), (get_some _ _ _ Hw). cbn [bind].
    destruct (vec_move_assign_rep m v w _ _ Hrv Hrw (Hdj _ _ _ _ Hv Hw Hij))
      as (m1 & -> & _ & Hl1 & Ha1 & Hb1 & Hn1). cbn [bind].
    eexists _, _. split; [done|].
    assert (Hmid : sys_inv m0 m1 (<[i := vec_new]> vs) (<[i := ([], false)]> ls)).
    { eapply sys_inv_replace; [done..| |apply item_new].
      split; [done|]. split; [intros b cs Hne Hb; split; [by apply Hb1|done]|].
      split; [done|]. split; [lia|]. change (held vec_new) with 0. lia. }
    assert (Hlv := lookup_lt_Some _ _ _ Hv). assert (Hll := lookup_lt_Some _ _ _ Hi).
    pose proof (sys_inv_swap _ _ _ _ i j vec_new w ([], false) pj Hmid) as Hsw.
    rewrite !(list_insert_commute _ j i) in Hsw by done. rewrite !list_insert_insert in Hsw.
    apply Hsw; [by apply list_lookup_insert|by rewrite list_lookup_insert_ne
      |by apply list_lookup_insert|by rewrite list_lookup_insert_ne|done].
  - destruct (ls !! i) as [[xs f]|] eqn:Hi; [|done].
    destruct (Forall2_lookup_r _ _ _ _ _ Hit Hi) as (v & Hv & Hr & Hfl). simpl in Hr, Hfl.
    rewrite (get_some _ _ _ Hv). cbn [bind].
    pose proof (vec_step_rep o m v xs Hr Hend) as Hst.
    destruct (list_op o xs) as [ys| |] eqn:Ho; [..|done]; injection Hls as <-.
    + left. destruct Hst as (v' & m' & Eq & Hr' & Hf). rewrite Eq. cbn [bind].
      eexists _, _. split; [done|]. eapply sys_inv_replace; [done..|]. split; [done|].
      exact (flag_obtains o m v xs ys v' m' f Hr Ho Eq Hfl Hr').
    + right. rewrite Hst. done.
Qed.

Lemma sys_run_inv m0 p : forall m vs ls ls', sys_inv m0 m vs ls -> lists_run p ls = Some ls' ->
  triv E = true \/ sys_at_end p ls = true ->
  exists vs' m', sys_run E p vs m = Ok (vs', m') /\ sys_inv m0 m' vs' ls'.
Proof.
  induction p as [|o p IH]; intros m vs ls ls' Hinv Hrun Hend; simpl in *.
  - injection Hrun as <-. eauto.
  - destruct (lists_step o ls) as [ls1|] eqn:Hs; [|done].
    assert (Hend' : triv E = true \/ sys_at_end p ls1 = true).
    { destruct Hend as [?|H]; [by left|right]. by apply andb_true_iff in H as [_ ?]. }
    destruct (sys_step_inv m0 m vs ls o ls1 Hinv Hs) as [(vs1 & m1 & -> & Hinv1)|[-> ->]].
    + destruct Hend as [?|H]; [by left|right]. by apply andb_true_iff in H as [? _].
    + by apply (IH m1 vs1 ls1).
    + by apply (IH m vs ls).
Qed.

Lemma sys_end_inv m0 vs : forall m ls, sys_inv m0 m vs ls ->
  exists m', sys_end E vs m = Ok m' /\ leaks m' = leaks m0 /\ allocations m' = allocations m0.
Proof.
  induction vs as [|v vs IH]; intros m ls Hinv; simpl.
  - destruct Hinv as (_ & _ & Hl & Ha). exists m. simpl in Ha. split_and!; [done..|lia].
  - destruct Hinv as (Hit & Hdj & Hl & Ha). apply Forall2_cons_inv_l in Hit as (p & ls' & Hp & Hit & ->).
    destruct (vec_destroy_rep m v p.1 (proj1 Hp)) as (m1 & -> & Hl1 & Ha1 & Hb1 & _). cbn [bind].
    apply (IH m1 ls'). split.
    { apply Forall2_same_length_lookup_2; [by eapply Forall2_length|].
      intros k w q Hw Hq. destruct (Forall2_lookup_lr _ _ _ _ _ _ Hit Hw Hq) as [Hr Hf].
      split; [|done]. apply (vec_rep_mono m); [|done]. intros b cs Hwb Hbk. apply Hb1; [|done].
      intros Hvb. by apply (Hdj 0 (S k) v w eq_refl Hw (Nat.neq_0_succ k) b). }
    split.
    { intros i j w1 w2 H1 H2 Hij. apply (Hdj (S i) (S j)); [done|done|lia]. }
    split; [congruence|]. change (sum_list (held <$> v :: vs)) with (held v + sum_list (held <$> vs)) in Ha.
    lia.
Qed.

(** ** Histories from construction *)
Lemma vec_built_rep init m0 : exists v m, vec_built E init m0 = Ok (v, m) /\
  vec_rep m v (init_list init) /\ frame m0 vec_new m v.
Proof.
  destruct init as [xs|]; simpl.
  - destruct (vec_of_list_rep xs m0) as (v & m & H1 & H2 & H3 & _). eauto.
  - exists vec_new, m0. split; [done|]. split; [apply vec_rep_new|apply frame_refl].
Qed.

Definition fits (ops : list (@vop A)) xs : Prop := triv E = true \/ all_at_end ops xs = true.

Lemma vec_after_rep init ops m0 ts ys : list_run ops (init_list init) = Some (ts, ys) ->
  fits ops (init_list init) ->
  exists v m, vec_after E init ops m0 ts v m /\ vec_rep m v ys /\ frame m0 vec_new m v.
Proof.
  intros Hl Hf. destruct (vec_built_rep init m0) as (v0 & m1 & Eq & Hr & Hf0).
  destruct (vec_run_rep ops m1 v0 _ ts ys Hr Hf Hl) as (v & m & Er & Hr' & Hf').
  exists v, m. split; [by exists v0, m1|]. split; [done|]. by eapply frame_trans.
Qed.

Lemma vec_after_inv init ops m0 ts ys ts' v m : list_run ops (init_list init) = Some (ts, ys) ->
  fits ops (init_list init) -> vec_after E init ops m0 ts' v m ->
  ts' = ts /\ vec_rep m v ys /\ frame m0 vec_new m v.
Proof.
  intros Hl Hf Ha. destruct (vec_after_rep init ops m0 ts ys Hl Hf) as (v2 & m2 & Ha2 & Hr & Hfr).
  destruct Ha as (w0 & n0 & E1 & E2), Ha2 as (w1 & n1 & F1 & F2).
  rewrite E1 in F1. injection F1 as <- <-. rewrite E2 in F2. by injection F2 as -> -> ->.
Qed.
End proofs.
