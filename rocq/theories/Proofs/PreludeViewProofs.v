(** Proofs about the views, the searches, the mutating loops and compose. *)
From Verif Require Import Base.Cpp Base.Mem Model.Vector Model.Sequence Model.Prelude
  Spec.VectorSpec Spec.SequenceSpec Spec.PreludeSpec
  Proofs.VectorProofs Proofs.SequenceProofs Proofs.PreludeProofs Proofs.PreludeSeqProofs.
From Coq Require Import Sorted.
Set Default Proof Using "Type".

(** ** Views *)
Lemma sub_wrap_le a b : b <= a -> (Z.of_nat a < size_mod)%Z -> sub_wrap a b = a - b.
Proof.
  intros H Ha. unfold sub_wrap, wrap. rewrite Z.mod_small by lia. lia.
Qed.

Lemma sub_wrap_gt a b : a < b -> (Z.of_nat b < size_mod)%Z ->
  Z.of_nat (sub_wrap a b) = (size_mod - Z.of_nat (b - a))%Z.
Proof.
  intros H Hb. unfold sub_wrap, wrap. rewrite Z2Nat.id by (apply Z.mod_pos_bound; lia).
  symmetry. apply Zmod_unique with (-1)%Z; lia.
Qed.

Section views.
Context {A : Type}.
Implicit Types (m : mem A) (s : src) (xs : list A).

Lemma holds_null m s xs : holds m s xs -> s_data s = CNull -> xs = [].
Proof.
  intros (_ & _ & H) Hn. destruct xs as [|x xs]; [done|]. specialize (H 0 x eq_refl).
  unfold nth in H. by rewrite Hn in H.
Qed.

Lemma view_ok m s xs k off len : holds m s xs -> off + len <= length xs -> can_hold k len ->
  exists v, (let* p := ptr_add (s_data s) off in view_new k p len) = Ok v /\ s_kind v = k /\
    s_len v = len /\ views m s off v (take len (drop off xs)).
Proof.
  intros Hs Hle Hk. assert (Hlen : length (take len (drop off xs)) = len).
  { rewrite take_length, drop_length. lia. }
  destruct (s_data s) as [|b o] eqn:Ed.
  - assert (xs = []) as -> by by eapply holds_null. simpl in Hle.
    assert (off = 0) as -> by lia. assert (len = 0) as -> by lia. simpl.
    destruct k as [n|n|]; simpl in *; [subst n|..]; eexists; (split; [done|]; split; [done|]; split; [done|]);
      (split; [split; [done|]; split; [done|]; done|]); intros m' j Hj; simpl in Hj; lia.
  - simpl.
    assert (Hread : forall x j, take len (drop off xs) !! j = Some x -> read m b (o + off + j) = Ok x).
    { intros x j Hx. apply lookup_take_Some in Hx as [Hx _]. rewrite lookup_drop in Hx.
      apply (holds_nth _ _ _ _ _ Hs) in Hx. unfold nth in Hx. rewrite Ed in Hx. rewrite <- Hx. f_equal. lia. }
    assert (Hwin : forall k' n, @window A s off (Src k' (CAt b (o + off)) n)).
    { intros k' n m' j Hj. unfold nth. rewrite Ed. simpl. f_equal. lia. }
    destruct k as [n|n|]; simpl in *; [subst n|..]; eexists; (split; [done|]; split; [done|]; split; [done|]);
      (split; [|apply Hwin]); (split; [by rewrite Hlen|]); (split; [simpl; by rewrite ?Hlen|]); intros j x Hx;
      by apply Hread.
Qed.

Lemma view_ok0 m s xs k len : holds m s xs -> len <= length xs -> can_hold k len ->
  exists v, view_new k (s_data s) len = Ok v /\ s_kind v = k /\ s_len v = len /\ views m s 0 v (take len xs).
Proof.
  intros Hs Hl Hk. destruct (view_ok m s xs k 0 len Hs) as (v & Hv & H1 & H2 & H3); [lia|done|].
  exists v. split; [|done]. rewrite <- Hv. destruct (s_data s); simpl; [done|]. by rewrite Nat.add_0_r.
Qed.

Lemma take_view i s xs m : holds m s xs -> exists v, take_ i s = Ok v /\ s_kind v = take_return i (s_kind s) /\
  views m s 0 v (take (idx_val i) xs).
Proof.
  intros Hs. destruct (Hs) as (Hl & Hf & _).
  destruct (view_ok0 m s xs (take_return i (s_kind s)) (Nat.min (idx_val i) (length xs)) Hs) as (v & Hv & H1 & H2 & H3).
  - lia.
  - destruct i, (s_kind s); simpl in *; try done; lia.
  - exists v. unfold take_. rewrite Hl. split; [done|]. split; [done|].
    rewrite firstn_firstn || idtac. destruct (decide (idx_val i <= length xs)).
    + by rewrite Nat.min_l in H3 by lia.
    + rewrite Nat.min_r in H3 by lia. rewrite (take_ge xs (idx_val i)) by lia. by rewrite firstn_all in H3.
Qed.

Lemma drop_view i s xs m : holds m s xs -> exists v, drop_ i s = Ok v /\ s_kind v = drop_return i (s_kind s) /\
  views m s (Nat.min (idx_val i) (length xs)) v (drop (idx_val i) xs).
Proof.
  intros Hs. destruct (Hs) as (Hl & Hf & _).
  set (n := Nat.min (idx_val i) (length xs)).
  destruct (view_ok m s xs (drop_return i (s_kind s)) n (length xs - n) Hs) as (v & Hv & H1 & H2 & H3).
  - lia.
  - destruct i as [k|k], (s_kind s); simpl in *; try done; try (case_decide; lia); lia.
  - exists v. unfold drop_. rewrite Hl.
    assert (Hn : (if decide (length xs < idx_val i) then length xs else idx_val i) = n) by (case_decide; lia).
    rewrite Hn. split; [done|]. split; [done|].
    rewrite take_ge in H3 by (rewrite drop_length; lia).
    destruct (decide (idx_val i <= length xs)).
    + unfold n in *. by rewrite Nat.min_l in * by lia.
    + unfold n in *. rewrite Nat.min_r in * by lia. by rewrite drop_all, (drop_ge xs (idx_val i)) in * by lia.
Qed.

Lemma head_ok s x xs m : holds m s (x :: xs) -> head_ s m = Ok x.
Proof.
  intros Hs. destruct (Hs) as (Hl & _). unfold head_. rewrite decide_False by (rewrite Hl; done).
  by apply (holds_nth _ _ _ _ _ Hs).
Qed.

Lemma last_ok s xs x m : holds m s (xs ++ [x]) -> last_ s m = Ok x.
Proof.
  intros Hs. destruct (Hs) as (Hl & _). unfold last_. rewrite app_length in Hl. simpl in Hl.
  rewrite decide_False by lia. rewrite Hl, Nat.add_sub. apply (holds_nth _ _ _ _ _ Hs).
  rewrite lookup_app_r, Nat.sub_diag by lia. done.
Qed.

Lemma tail_return_holds k n : can_hold k (S n) -> can_hold (tail_return k) n.
Proof. destruct k; simpl; lia || done. Qed.

Lemma tail_view s x xs m : holds m s (x :: xs) -> exists v, tail_ s = Ok v /\
  s_kind v = tail_return (s_kind s) /\ views m s 1 v xs.
Proof.
  intros Hs. destruct (Hs) as (Hl & Hf & _). unfold tail_. simpl in Hl. rewrite decide_False by lia.
  destruct (view_ok m s (x :: xs) (tail_return (s_kind s)) 1 (length xs) Hs) as (v & Hv & H1 & H2 & H3);
    [simpl; lia|by apply tail_return_holds|].
  exists v. rewrite Hl. simpl. rewrite Nat.sub_0_r. split; [done|]. split; [done|]. simpl in H3. rewrite drop_0 in H3.
  by rewrite firstn_all in H3.
Qed.

Lemma init_view s x xs m : holds m s (xs ++ [x]) -> exists v, init_ s = Ok v /\
  s_kind v = tail_return (s_kind s) /\ views m s 0 v xs.
Proof.
  intros Hs. destruct (Hs) as (Hl & Hf & _). unfold init_. rewrite app_length in Hl, Hf. simpl in Hl, Hf.
  rewrite decide_False by lia.
  destruct (view_ok0 m s (xs ++ [x]) (tail_return (s_kind s)) (length xs) Hs) as (v & Hv & H1 & H2 & H3);
    [rewrite app_length; lia|apply tail_return_holds; by rewrite Nat.add_1_r in Hf|].
  exists v. rewrite Hl, Nat.add_sub. split; [done|]. split; [done|]. by rewrite take_app_length in H3 || by rewrite take_app in H3.
Qed.

Lemma on_empty s m : holds m s (@nil A) -> head_ s m = Throw /\ last_ s m = Throw /\
  tail_ s = Throw /\ init_ s = Throw.
Proof. intros (Hl & _). unfold head_, last_, tail_, init_. simpl in Hl. by rewrite !decide_True by done. Qed.

(** ** slice *)
Lemma slice_view start stop s xs m : holds m s xs -> idx_val start <= idx_val stop ->
  idx_val stop <= length xs -> (Z.of_nat (length xs) < size_mod)%Z ->
  exists v, slice_ start stop s = Ok v /\
    views m s (idx_val start) v (drop (idx_val start) (take (idx_val stop) xs)).
Proof.
  intros Hs H1 H2 Hm. destruct (Hs) as (Hl & Hf & _).
  assert (Hsub : idx_val (idx_sub stop start) = idx_val stop - idx_val start).
  { destruct start, stop; simpl; apply sub_wrap_le; simpl in *; lia. }
  destruct (view_ok m s xs (take_return (idx_sub stop start) (drop_return start (s_kind s)))
    (idx_val start) (idx_val stop - idx_val start) Hs) as (v & Hv & Hk & Hn & Hw).
  - lia.
  - rewrite <- Hsub.
    destruct start as [a|a], stop as [b|b], (s_kind s) as [c|c|]; simpl in *; rewrite ?Hsub; try done;
      repeat case_decide; simpl in *; lia.
  - exists v. unfold slice_. rewrite Hsub. split; [done|]. by rewrite skipn_firstn_comm.
Qed.

Lemma slice_unsafe_view start stop s xs m : holds m s xs -> idx_val start <= idx_val stop ->
  idx_val stop <= length xs -> (Z.of_nat (length xs) < size_mod)%Z ->
  (forall c, ct_cap (s_kind s) = Some c -> (Z.of_nat c < size_mod)%Z) ->
  exists v, slice_unsafe start stop s = Ok v /\
    views m s (idx_val start) v (drop (idx_val start) (take (idx_val stop) xs)).
Proof.
  intros Hs H1 H2 Hm Hcap. destruct (Hs) as (Hl & Hf & _).
  assert (Hsub : idx_val (idx_sub stop start) = idx_val stop - idx_val start).
  { destruct start, stop; simpl; apply sub_wrap_le; simpl in *; lia. }
  destruct (view_ok m s xs (take_unsafe_return (idx_sub stop start) (drop_unsafe_return start (s_kind s)))
    (idx_val start) (idx_val stop - idx_val start) Hs) as (v & Hv & Hk & Hn & Hw).
  - lia.
  - rewrite <- Hsub.
    destruct start as [a|a], stop as [b|b], (s_kind s) as [c|c|]; simpl in *; rewrite ?Hsub; try done;
      rewrite ?(sub_wrap_le c a) by (try lia; apply Hcap; done); lia.
  - exists v. unfold slice_unsafe. rewrite Hsub. split; [done|]. by rewrite skipn_firstn_comm.
Qed.

Lemma take_unsafe_view i s xs m : holds m s xs -> idx_val i <= length xs ->
  exists v, take_unsafe i s = Ok v /\ views m s 0 v (take (idx_val i) xs).
Proof.
  intros Hs Hi. destruct (Hs) as (Hl & Hf & _).
  destruct (view_ok0 m s xs (take_unsafe_return i (s_kind s)) (idx_val i) Hs) as (v & Hv & H1 & H2 & H3); [done|..].
  - destruct i, (s_kind s); simpl in *; try done; lia.
  - eauto.
Qed.

Lemma drop_unsafe_view i s xs m : holds m s xs -> idx_val i <= length xs ->
  (Z.of_nat (length xs) < size_mod)%Z ->
  (forall c, ct_cap (s_kind s) = Some c -> (Z.of_nat c < size_mod)%Z) ->
  exists v, drop_unsafe i s = Ok v /\ views m s (idx_val i) v (drop (idx_val i) xs).
Proof.
  intros Hs Hi Hm Hcap. destruct (Hs) as (Hl & Hf & _).
  destruct (view_ok m s xs (drop_unsafe_return i (s_kind s)) (idx_val i) (length xs - idx_val i) Hs) as (v & Hv & H1 & H2 & H3); [lia|..].
  - destruct i as [k|k], (s_kind s) as [c|c|]; simpl in *; try done; try lia;
      rewrite sub_wrap_le by (try lia; apply Hcap; done); lia.
  - exists v. unfold drop_unsafe. rewrite sub_wrap_le by lia. rewrite Hl. split; [done|].
    rewrite take_ge in H3 by (rewrite drop_length; lia). done.
Qed.

Lemma slice_array_past n b start stop m cells : blk m b cells -> length cells = n ->
  start <= n -> n < stop -> (Z.of_nat stop < size_mod)%Z ->
  exists v, slice_ (Dy start) (Dy stop) (src_arr n b) = Ok v /\ s_len v = stop - start /\
    nth m v (n - start) = UB OutOfBounds.
Proof.
  intros Hb Hl H1 H2 Hm. unfold slice_, src_arr. simpl. rewrite sub_wrap_le by lia.
  eexists. split; [done|]. split; [done|]. unfold nth. simpl. unfold read, with_block. rewrite Hb.
  replace (start + (n - start)) with (length cells) by lia. by rewrite lookup_ge_None_2 by lia.
Qed.

Lemma slice_array_reversed n b start stop : stop < start -> (Z.of_nat start < size_mod)%Z ->
  exists v, slice_ (Dy start) (Dy stop) (src_arr n b) = Ok v /\
    Z.of_nat (s_len v) = (size_mod - Z.of_nat (start - stop))%Z.
Proof.
  intros H Hm. unfold slice_, src_arr. cbn [s_kind s_data ptr_add idx_val bind idx_sub drop_return loose ct_cap take_return].
  eexists. split; [done|]. by apply sub_wrap_gt.
Qed.

Lemma slice_static_clamps start stop s xs m : holds m s xs -> (exists n, s_kind s = KArray n) ->
  start <= stop -> start <= length xs -> (Z.of_nat stop < size_mod)%Z ->
  exists v, slice_ (Sz start) (Sz stop) s = Ok v /\ views m s start v (drop start (take stop xs)).
Proof.
  intros Hs [n Hk] H1 H2 Hm. destruct (Hs) as (Hl & Hf & _). rewrite Hk in Hf. simpl in Hf.
  destruct (view_ok m s xs (KArray (Nat.min (stop - start) (n - start))) start (Nat.min (stop - start) (n - start)) Hs)
    as (v & Hv & H3 & H4 & H5); [lia|done|].
  exists v. split.
  - rewrite <- Hv. unfold slice_. rewrite Hk. cbn [idx_sub idx_val take_return drop_return].
    rewrite sub_wrap_le by lia.
    assert (Hc : (if decide (start < n) then n - start else 0) = n - start) by (case_decide; lia).
    rewrite Hc. destruct (ptr_add (s_data s) start) as [p| | |]; done.
  - rewrite skipn_firstn_comm. destruct (decide (stop <= n)).
    + by rewrite Nat.min_l in H5 by lia.
    + rewrite Nat.min_r in H5 by lia.
      rewrite take_ge in H5 by (rewrite drop_length; lia).
      by rewrite take_ge by (rewrite drop_length; lia).
Qed.
End views.

(** ** Scanning and searching *)
Section search.
Context {A W : Type}.
Implicit Types (m : mem A) (s : src) (xs : list A) (w : W).

Lemma scan_ok (f : A -> W -> res (bool * W)) s xs m w : holds m s xs ->
  scan f s m w = let* (p, q, w) := spanW f xs w in Ok (length p, w).
Proof.
  intros Hs. destruct (Hs) as (Hl & _). unfold scan. rewrite Hl.
  assert (HH : forall fuel i w ys, drop i xs = ys -> i <= length xs -> length xs - i < fuel ->
    loop fuel (fun '(i, w) => if decide (i < length xs) then
      let* x := nth m s i in let* (go, w) := f x w in
      if go : bool then Ok (inl (i + 1, w)) else Ok (inr (i, w)) else Ok (inr (i, w))) (i, w) =
    let* (p, q, w) := spanW f ys w in Ok (i + length p, w)).
  { induction fuel as [|fuel IH]; intros i w1 ys Hd Hi Hlt; [lia|]. cbn [loop].
    destruct (decide (i < length xs)) as [Hi'|Hi'].
    - destruct (lookup_lt_is_Some_2 xs i) as [x Hx]; [done|].
      rewrite (holds_nth _ _ _ _ _ Hs Hx). rewrite (drop_S _ _ _ Hx) in Hd. subst ys. cbn [bind spanW].
      destruct (f x w1) as [[[|] w2]| | |]; cbn [bind]; try done.
      + rewrite (IH (i + 1) w2 (drop (S i) xs)); [|by rewrite Nat.add_1_r|lia|lia].
        destruct (spanW f (drop (S i) xs) w2) as [[[p q] w3]| | |]; simpl; try done. do 2 f_equal. lia.
      + simpl. by rewrite Nat.add_0_r.
    - rewrite drop_ge in Hd by lia. subst ys. simpl. by rewrite Nat.add_0_r. }
  rewrite (HH (S (length xs)) 0 w xs); [done|by rewrite drop_0|lia|lia].
Qed.

Lemma spanW_app (f : A -> W -> res (bool * W)) xs : forall w p q w1, spanW f xs w = Ok (p, q, w1) -> p ++ q = xs.
Proof.
  induction xs as [|x xs IH]; intros w p q w1 H; simpl in H; [by injection H as <- <- <-|].
  destruct (f x w) as [[[|] w2]| | |]; simpl in H; try done.
  - destruct (spanW f xs w2) as [[[p' q'] w3]| | |] eqn:E; simpl in H; try done. injection H as <- <- <-.
    simpl. f_equal. by eapply IH.
  - by injection H as <- <- <-.
Qed.

Lemma take_while_ok (f : A -> W -> res (bool * W)) s xs m w : holds m s xs ->
  same_outcome (fun '(p, q, w1) '(v, w2) => w1 = w2 /\ s_kind v = loose (s_kind s) /\ views m s 0 v p)
    (spanW f xs w) (take_while_ f s m w).
Proof.
  intros Hs. unfold take_while_. rewrite (scan_ok f s xs m w Hs).
  destruct (spanW f xs w) as [[[p q] w1]| | |] eqn:E; simpl; try done.
  apply spanW_app in E as <-. destruct (take_view (Dy (length p)) s _ m Hs) as (v & -> & Hk & Hv). simpl in *.
  split; [done|]. split; [done|]. rewrite take_app in Hv. done.
Qed.

Lemma drop_while_ok (f : A -> W -> res (bool * W)) s xs m w : holds m s xs ->
  same_outcome (fun '(p, q, w1) '(v, w2) => w1 = w2 /\ s_kind v = loose (s_kind s) /\ views m s (length p) v q)
    (spanW f xs w) (drop_while_ f s m w).
Proof.
  intros Hs. unfold drop_while_. rewrite (scan_ok f s xs m w Hs).
  destruct (spanW f xs w) as [[[p q] w1]| | |] eqn:E; simpl; try done.
  apply spanW_app in E as <-. destruct (drop_view (Dy (length p)) s _ m Hs) as (v & -> & Hk & Hv). simpl in *.
  split; [done|]. split; [done|]. rewrite drop_app, app_length, Nat.min_l in Hv by lia. done.
Qed.

Lemma first_index_ok (f : A -> W -> res (bool * W)) s xs m w : holds m s xs ->
  first_index f s m w = findW f xs w.
Proof.
  intros Hs. destruct (Hs) as (Hl & _). unfold first_index. rewrite Hl.
  assert (HH : forall fuel i w ys, drop i xs = ys -> i <= length xs -> length xs - i < fuel ->
    loop fuel (fun '(i, w) => if decide (i < length xs) then
      let* x := nth m s i in let* (hit, w) := f x w in
      if hit : bool then Ok (inr (Some i, w)) else Ok (inl (i + 1, w)) else Ok (inr (None, w))) (i, w) =
    let* (o, w) := findW f ys w in Ok (match o with Some k => Some (i + k) | None => None end, w)).
  { induction fuel as [|fuel IH]; intros i w1 ys Hd Hi Hlt; [lia|]. cbn [loop].
    destruct (decide (i < length xs)) as [Hi'|Hi'].
    - destruct (lookup_lt_is_Some_2 xs i) as [x Hx]; [done|].
      rewrite (holds_nth _ _ _ _ _ Hs Hx). rewrite (drop_S _ _ _ Hx) in Hd. subst ys. cbn [bind findW].
      destruct (f x w1) as [[[|] w2]| | |]; cbn [bind]; try done.
      + simpl. by rewrite Nat.add_0_r.
      + rewrite (IH (i + 1) w2 (drop (S i) xs)); [|by rewrite Nat.add_1_r|lia|lia].
        destruct (findW f (drop (S i) xs) w2) as [[[k|] w3]| | |]; simpl; try done. do 3 f_equal. lia.
    - rewrite drop_ge in Hd by lia. by subst ys. }
  rewrite (HH (S (length xs)) 0 w xs); [|by rewrite drop_0|lia|lia].
  destruct (findW f xs w) as [[[k|] w1]| | |]; done.
Qed.

Lemma find_indices_ok (f : A -> W -> res (bool * W)) s xs m w mi : holds m s xs ->
  same_outcome (fun '(ps, w1) => built mi (filter_return (s_kind s)) (ps.*1, w1))
    (filterW (fun '(_, x) => f x) (indexed 0 xs) w) (find_indices_ f s m w mi).
Proof.
  intros Hs. destruct (Hs) as (Hl & Hf & _). unfold find_indices_.
  destruct (cont_empty_rep nat_ety (s_kind s) mi) as (r & mb1 & -> & Hr & Hk & Ha). rewrite Hl.
  set (g := fun '(_, x) => f x). set (ixs := indexed 0 xs).
  rewrite <- (bind_ok_r (filterW g ixs w)).
  assert (Heq : bind (filterW g ixs w) Ok =
    forW (fun x '(acc, w) => let* (b, w) := g x w in Ok (if b : bool then acc ++ [x] else acc, w)) ixs ([], w)).
  { rewrite filterW_forW. by destruct (filterW g ixs w) as [[ys w1]| | |]. }
  rewrite Heq. rewrite <- (indexed_length xs 0). fold ixs. eapply so_mono.
  - apply (so_for (fun i '(acc, w) '(r, w', mb') => w = w' /\ grow_rep nat_ety r mb' (acc.*1) /\ aside mi mb' r /\
      cont_kind r = filter_return (s_kind s) /\ length acc <= i)
      (fun x '(acc, w) => let* (b, w) := g x w in Ok (if b : bool then acc ++ [x] else acc, w)) _ ixs 0 ([], w) (r, w, mb1)).
    + split_and!; try done. 
    + intros j [j' x] [acc w1] [[r2 w2] mb2] Hx (<- & Hr2 & Ha2 & Hk2 & Hle). simpl in *.
      apply indexed_lookup in Hx as [-> Hx].
      rewrite (holds_nth _ _ _ _ _ Hs Hx). cbn [bind]. apply so_same. intros [[|] w3]; simpl.
      * assert (Hj := lookup_lt_Some _ _ _ Hx).
        destruct (cont_push_rep nat_ety r2 mb2 mi (acc.*1) j Hr2 Ha2) as (r3 & mb3 & -> & Hr3 & Ha3 & Hk3).
        { rewrite Hk2, fmap_length. destruct (s_kind s); simpl in *; try lia. }
        simpl. split_and!; try done; [by rewrite fmap_app|congruence|]. rewrite app_length. simpl. lia.
      * split_and!; try done. lia.
  - unfold ixs. rewrite indexed_length. intros [ys w1] [[r2 w2] mb2] (<- & Hr2 & Ha2 & Hk2 & Hle). simpl in *. split; [done|].
    split; [done|]. split; [by eapply grow_reads|]. split; [|done].
    rewrite fmap_length. destruct (s_kind s); simpl in *; lia.
Qed.

(** Predicates without effects. *)
Lemma spanW_pure (f : A -> bool) xs w : exists p q, spanW (fun x w => Ok (f x, w)) xs w = Ok (p, q, w) /\
  p ++ q = xs /\ Forall (fun x => f x = true) p /\ (forall x, head q = Some x -> f x = false).
Proof.
  induction xs as [|x xs (p & q & IH & <- & Hp & Hq)]; [by exists [], []|]. simpl.
  destruct (f x) eqn:E.
  - rewrite IH. simpl. exists (x :: p), q. split_and!; try done. by constructor.
  - exists [], (x :: p ++ q). split_and!; try done. intros y. simpl. congruence.
Qed.

Lemma findW_pure (f : A -> bool) xs w : exists o, findW (fun x w => Ok (f x, w)) xs w = Ok (o, w) /\
  match o with
  | Some i => (exists x, xs !! i = Some x /\ f x = true) /\
              (forall j x, j < i -> xs !! j = Some x -> f x = false)
  | None => Forall (fun x => f x = false) xs
  end.
Proof.
  induction xs as [|x xs (o & IH & Ho)]; [by exists None|]. simpl. destruct (f x) eqn:E.
  - exists (Some 0). split; [done|]. split; [by exists x|]. lia.
  - rewrite IH. destruct o as [i|]; simpl.
    + exists (Some (S i)). split; [done|]. destruct Ho as [Ho1 Ho2]. split; [done|].
      intros [|j] y Hj Hy; simpl in Hy; [congruence|]. apply (Ho2 j y); [lia|done].
    + exists None. split; [done|]. by constructor.
Qed.

Lemma filterW_pure (f : A -> bool) xs w : filterW (fun x w => Ok (f x, w)) xs w = Ok (List.filter f xs, w).
Proof. induction xs as [|x xs IH]; [done|]. simpl. rewrite IH. simpl. by destruct (f x). Qed.

Lemma filter_indexed (f : A -> bool) xs n w : exists ps,
  filterW (fun '(_, x) => fun w => Ok (f x, w)) (indexed n xs) w = Ok (ps, w) /\
  StronglySorted lt ps.*1 /\ (forall i, i ∈ ps.*1 <-> n <= i /\ exists x, xs !! (i - n) = Some x /\ f x = true).
Proof.
  revert n. induction xs as [|x xs IH]; intros n.
  - exists []. split; [done|]. split; [constructor|]. intros i. split; [by intros ?%elem_of_nil|]. by intros (_ & x & ? & _).
  - destruct (IH (S n)) as (ps & Eq & Hs & Hi). simpl. rewrite Eq. simpl.
    assert (Hstep : forall i, i ∈ ps.*1 <-> n < i /\ exists y, (x :: xs) !! (i - n) = Some y /\ f y = true).
    { intros i. rewrite Hi. split; intros (H1 & y & H2 & H3).
      - split; [lia|]. exists y. split; [|done]. by replace (i - n) with (S (i - S n)) by lia.
      - split; [lia|]. exists y. split; [|done]. by replace (i - n) with (S (i - S n)) in H2 by lia. }
    destruct (f x) eqn:E.
    + exists ((n, x) :: ps). split; [done|]. rewrite fmap_cons. simpl. split.
      * constructor; [done|]. apply Forall_forall. intros i Hin. apply Hi in Hin. lia.
      * intros i. rewrite elem_of_cons, Hstep. split.
        -- intros [->|[H1 H2]]; [|split; [lia|done]]. split; [lia|]. exists x. by rewrite Nat.sub_diag.
        -- intros (H1 & H2). destruct (decide (i = n)); [by left|right]. split; [lia|done].
    + exists ps. split; [done|]. split; [done|]. intros i. rewrite Hstep. split; intros (H1 & y & H2 & H3).
      * split; [lia|]. eauto.
      * destruct (decide (i = n)) as [->|]; [rewrite Nat.sub_diag in H2; simpl in H2; congruence|].
        split; [lia|]. eauto.
Qed.
End search.

(** ** Mutation *)
Section mutate.
Context {A W : Type} (E : ety A).
Implicit Types (m : mem A) (s : src) (w : W).

Lemma assign_read m b i x y : read m b i = Ok x -> exists m', assign E m b i y = Ok m' /\ read m' b i = Ok y /\
  (forall b' i', (b', i') <> (b, i) -> read m' b' i' = read m b' i') /\ leaks m' = leaks m.
Proof.
  intros Hr. unfold read, with_block in Hr. destruct (blocks m !! b) as [[cs|]|] eqn:Hb; try done.
  destruct (cs !! i) as [[|a]|] eqn:Hi; try done.
  assert (Hbl : b < length (blocks m)) by by eapply lookup_lt_Some.
  assert (Hil : i < length cs) by by eapply lookup_lt_Some.
  exists (upd m b (<[i := Live y]> cs)). unfold assign, with_block. rewrite Hb, Hi.
  split; [done|]. unfold read, with_block, upd; simpl. split; [|split; [|done]].
  - rewrite list_lookup_insert by done. by rewrite list_lookup_insert.
  - intros b' i' Hne. destruct (decide (b' = b)) as [->|Hb'].
    + rewrite list_lookup_insert by done. rewrite list_lookup_insert_ne by congruence. by rewrite Hb.
    + by rewrite list_lookup_insert_ne.
Qed.

Lemma nth_addr m s i : nth m s i = match addr s i with Some (b, j) => read m b j | None => UB NullDeref end.
Proof. unfold nth, addr. by destruct (s_data s). Qed.

Lemma nths_set_ok ss : forall m i ys, length ss = length ys ->
  (forall k s, ss !! k = Some s -> exists x, nth m s i = Ok x) ->
  (forall k l s t, k <> l -> ss !! k = Some s -> ss !! l = Some t -> addr s i <> addr t i) ->
  exists m', nths_set E m ss i ys = Ok m' /\ leaks m' = leaks m /\
    (forall k s y, ss !! k = Some s -> ys !! k = Some y -> nth m' s i = Ok y) /\
    (forall t j, (forall k s, ss !! k = Some s -> addr s i <> addr t j) -> nth m' t j = nth m t j).
Proof.
  induction ss as [|s ss IH]; intros m i ys Hl Hr Hd; destruct ys as [|y ys]; try done.
  - exists m. split_and!; try done.
  - destruct (Hr 0 s eq_refl) as [x Hx]. rewrite nth_addr in Hx. simpl. unfold nth_set.
    destruct (addr s i) as [[b j]|] eqn:Ea; [|done].
    assert (Hsd : s_data s = CAt b (j - i) /\ j = (j - i) + i).
    { unfold addr in Ea. destruct (s_data s); [done|]. injection Ea as <- <-. split; [f_equal; lia|lia]. }
    destruct Hsd as [Hsd Hj]. rewrite Hsd, <- Hj.
    destruct (assign_read m b j x y Hx) as (m1 & -> & Hy & Ho & Hlk). simpl.
    assert (Hoth : forall t k, addr t k <> Some (b, j) -> nth m1 t k = nth m t k).
    { intros t k Hne. rewrite !nth_addr. destruct (addr t k) as [[b' j']|]; [|done]. apply Ho. congruence. }
    destruct (IH m1 i ys) as (m2 & -> & Hlk2 & H2 & H3); [by injection Hl|..].
    + intros k t Hk. destruct (Hr (S k) t Hk) as [z Hz]. exists z. rewrite Hoth; [done|].
      intros Heq. apply (Hd 0 (S k) s t); [done..|congruence].
    + intros k l t u Hkl Ht Hu. apply (Hd (S k) (S l)); [lia|done..].
    + exists m2. split; [done|]. split; [congruence|]. split.
      * intros [|k] t z Ht Hz; simpl in *.
        -- injection Ht as <-. injection Hz as <-. rewrite H3.
           ++ by rewrite nth_addr, Ea.
           ++ intros k t Ht Heq. apply (Hd (S k) 0 t s); done.
        -- by apply (H2 k).
      * intros t k Hne. rewrite H3; [|intros l u Hu; by apply (Hne (S l))].
        apply Hoth. intros Heq. apply (Hne 0 s eq_refl). congruence.
Qed.

(** All sequences are apart from each other. *)
Lemma for_each_mut_gen (f : nat -> list A -> W -> res (list A * W)) ss xss rs m w :
  Forall2 (holds m) ss xss -> zips xss rs ->
  (forall k l s t, k <> l -> ss !! k = Some s -> ss !! l = Some t -> apart s t) ->
  (forall i xs w ys w', f i xs w = Ok (ys, w') -> length ys = length xs) ->
  same_outcome (fun '(rows, w1) '(m', w2) => w1 = w2 /\ leaks m' = leaks m /\
      (forall k s xs, ss !! k = Some s -> xss !! k = Some xs ->
         exists ys, column rows k xs ys /\ holds m' s ys) /\
      (forall t ys, (forall s, s ∈ ss -> apart s t) -> holds m t ys -> holds m' t ys))
    (mapW (fun '(i, r) => f i r) (indexed 0 rs) w) (for_each_with_index_mut E f ss m w).
Proof.
  intros Hs Hz Hap Hlen. unfold for_each_with_index_mut.
  rewrite (min_length_zips _ _ _ _ Hs Hz), <- (indexed_length rs 0).
  set (g := fun '(i, r) => f i r). set (irs := indexed 0 rs).
  rewrite <- (bind_ok_r (mapW g irs w)).
  assert (Heq : bind (mapW g irs w) Ok =
    forW (fun x '(acc, w) => let* (y, w) := g x w in Ok (acc ++ [y], w)) irs ([], w)).
  { rewrite mapW_forW. by destruct (mapW g irs w) as [[ys w1]| | |]. }
  rewrite Heq.
  set (done_rows := fun (acc : list (list A)) (m' : mem A) =>
    Forall (fun row => length row = length ss) acc /\ leaks m' = leaks m /\
    (forall k s xs, ss !! k = Some s -> xss !! k = Some xs -> forall i x,
       match acc !! i with Some row => row !! k | None => xs !! i end = Some x -> nth m' s i = Ok x) /\
    (forall t j, (forall k s i, ss !! k = Some s -> i < s_len s -> addr s i <> addr t j) -> nth m' t j = nth m t j)).
  assert (Hrow : forall i r, rs !! i = Some r -> length r = length ss).
  { intros i r Hr. pose proof (Forall2_length _ _ _ (zips_row _ _ _ _ Hz Hr)). rewrite <- H.
    symmetry. by eapply Forall2_length. }
  eapply so_mono.
  - apply (so_for (fun i '(acc, w) '(m', w') => w = w' /\ length acc = i /\ done_rows acc m')
      (fun x '(acc, w) => let* (y, w) := g x w in Ok (acc ++ [y], w)) _ irs 0 ([], w) (m, w)).
    + split; [done|]. split; [done|]. split; [constructor|]. split; [done|]. split; [|done].
      intros k s xs Hk Hx i x. simpl. destruct (Forall2_lookup_lr _ _ _ _ _ _ Hs Hk Hx) as (_ & _ & H). apply H.
    + intros j [j' r] [acc w1] [m2 w2] Hj (<- & Hacc & Hfa & Hlk & Hin & Hout). simpl in *.
      apply indexed_lookup in Hj as [-> Hr]. simpl.
      assert (Hnths : nths m2 ss j = Ok r).
      { pose proof (zips_row _ _ _ _ Hz Hr) as Hrr.
        assert (HH : forall k s x, ss !! k = Some s -> r !! k = Some x -> nth m2 s j = Ok x).
        { intros k s x Hk Hx. destruct (Forall2_lookup_l _ _ _ _ _ Hs Hk) as (xs & Hxs & _).
          pose proof (Forall2_lookup_lr _ _ _ _ _ _ Hrr Hxs Hx) as Hxj. simpl in Hxj.
          apply (Hin k s xs Hk Hxs). rewrite lookup_ge_None_2 by lia. done. }
        pose proof (Hrow _ _ Hr) as Hrl. clear - HH Hrl. revert r HH Hrl. induction ss as [|s ss IH]; intros [|x r] HH Hrl; try done.
        simpl. rewrite (HH 0 s x eq_refl eq_refl). simpl. rewrite (IH r); [done| |by injection Hrl].
        intros k t y Hk Hy. by apply (HH (S k)). }
      rewrite Hnths. cbn [bind]. destruct (f j r w1) as [[ys w3]| | |] eqn:Ef; simpl; try done.
      assert (Hys : length ys = length ss) by (rewrite (Hlen _ _ _ _ _ Ef); by eapply Hrow).
      assert (Hjlt : forall k s, ss !! k = Some s -> j < s_len s).
      { intros k s Hk. destruct (Forall2_lookup_l _ _ _ _ _ Hs Hk) as (xs & Hxs & Hh & _).
        rewrite Hh. destruct Hz as (Hz & _). specialize (Hz xs (elem_of_list_lookup_2 _ _ _ Hxs)).
        apply lookup_lt_Some in Hr. lia. }
      destruct (nths_set_ok ss m2 j ys) as (m3 & -> & Hlk3 & Hin3 & Hout3); [done|..].
      * intros k s Hk. destruct (Forall2_lookup_l _ _ _ _ _ Hs Hk) as (xs & Hxs & Hh & _).
        destruct (lookup_lt_is_Some_2 xs j) as [x Hx]; [rewrite <- Hh; by eapply Hjlt|].
        exists x. apply (Hin k s xs Hk Hxs). rewrite lookup_ge_None_2 by lia. done.
      * intros k l s t Hkl Hk Hl Haddr. 
        destruct (Forall2_lookup_l _ _ _ _ _ Hs Hk) as (xs & Hxs & Hh & _ & Hrd).
        destruct (lookup_lt_is_Some_2 xs j) as [x Hx]; [rewrite <- Hh; by eapply Hjlt|].
        specialize (Hrd _ _ Hx). rewrite nth_addr in Hrd. destruct (addr s j) as [a|] eqn:Ea; [|done].
        apply (Hap k l s t Hkl Hk Hl j j a); [by eapply Hjlt..|done|congruence].
      * cbn [bind]. split; [done|]. rewrite app_length. simpl. split; [lia|]. split; [|split; [congruence|split]].
        -- apply Forall_app. split; [done|]. by constructor.
        -- intros k s xs Hk Hx i x Hix. destruct (decide (i = j)) as [->|Hij].
           ++ rewrite lookup_app_r in Hix by lia. rewrite Hacc, Nat.sub_diag in Hix. simpl in Hix.
              by eapply Hin3.
           ++ assert (Hix' : match acc !! i with Some row => row !! k | None => xs !! i end = Some x).
              { destruct (decide (i < j)).
                - by rewrite lookup_app_l in Hix by lia.
                - rewrite (lookup_ge_None_2 acc) by lia. rewrite lookup_ge_None_2 in Hix; [done|].
                  rewrite app_length. simpl. lia. }
              specialize (Hin k s xs Hk Hx i x Hix'). rewrite Hout3; [done|].
              intros l t Hl Haddr. rewrite nth_addr in Hin. destruct (addr s i) as [a|] eqn:Ea; [|done].
              destruct (decide (l = k)) as [->|Hlk'].
              ** rewrite Hk in Hl. injection Hl as <-. unfold addr in Haddr, Ea.
                 destruct (s_data s); [done|]. injection Ea as <-. injection Haddr. lia.
              ** assert (Hil : i < s_len s).
                 { destruct (Forall2_lookup_lr _ _ _ _ _ _ Hs Hk Hx) as (Hh & _). rewrite Hh.
                   destruct (acc !! i) as [row|] eqn:Er.
                   - apply lookup_lt_Some in Er. specialize (Hjlt k s Hk). lia.
                   - by eapply lookup_lt_Some. }
                 apply (Hap l k t s Hlk' Hl Hk j i a); [by eapply Hjlt|done|congruence|done].
        -- intros t i Ht. rewrite Hout3; [by apply Hout|]. intros k s Hk. apply (Ht k); [done|]. by eapply Hjlt.
  - intros [rows w1] [m' w2] (<- & Hrl & Hfa & Hlk & Hin & Hout). split; [done|]. split; [done|]. split.
    + intros k s xs Hk Hx. destruct (Forall2_lookup_lr _ _ _ _ _ _ Hs Hk Hx) as (Hl & Hf & _).
      assert (Hrl' : length rows <= length xs).
      { simpl in Hrl. unfold irs in Hrl. rewrite indexed_length in Hrl. rewrite Hrl.
        destruct Hz as (Hz & _). apply Hz. by eapply elem_of_list_lookup_2. }
      assert (Hex : exists ys, column rows k xs ys).
      { exists (omap (fun row => row !! k) rows ++ drop (length rows) xs).
        assert (Hkk := lookup_lt_Some _ _ _ Hk).
        assert (Hom : forall i, omap (fun row => row !! k) rows !! i = match rows !! i with Some row => row !! k | None => None end).
        { clear - Hfa Hkk. induction Hfa as [|row rows Hrow _ IH]; intros i; [done|]. csimpl.
          destruct (lookup_lt_is_Some_2 row k) as [z Hz]; [lia|]. rewrite Hz. destruct i; simpl; [by rewrite Hz|apply IH]. }
        assert (Homl : length (omap (fun row => row !! k) rows) = length rows).
        { clear - Hfa Hkk. induction Hfa as [|row rows Hrow _ IH]; [done|]. csimpl.
          destruct (lookup_lt_is_Some_2 row k) as [z Hz]; [lia|]. rewrite Hz. simpl. by rewrite IH. }
        split.
        - rewrite app_length, drop_length, Homl. lia.
        - intros i. destruct (decide (i < length rows)).
          + rewrite lookup_app_l by lia. rewrite Hom.
            destruct (lookup_lt_is_Some_2 rows i) as [row ->]; [lia|]. done.
          + rewrite lookup_app_r by lia. rewrite (lookup_ge_None_2 rows) by lia.
            rewrite Homl, lookup_drop. f_equal. lia. }
      destruct Hex as [ys Hc]. exists ys. split; [done|]. destruct Hc as [Hyl Hyi].
      split; [congruence|]. split; [by rewrite Hyl|]. intros i x Hix. rewrite Hyi in Hix. by eapply Hin.
    + intros t ys Ht (Hl & Hf & Hrd). split; [done|]. split; [done|]. intros i x Hi.
      rewrite Hout; [by apply Hrd|]. intros k s j Hk Hj Haddr. pose proof (Hrd _ _ Hi) as Hr.
      rewrite nth_addr in Hr. destruct (addr t i) as [a|] eqn:Ea; [|done].
      apply (Ht s (elem_of_list_lookup_2 _ _ _ Hk) j i a); [done| |done|done].
      rewrite Hl. by eapply lookup_lt_Some.
Qed.
End mutate.

(** ** compose *)
Section compose.
Context {X W : Type}.

Lemma foldlW_snoc {Y Z} (f : Y -> X -> Z -> res (Y * Z)) xs x : forall y w,
  foldlW f y (xs ++ [x]) w = let* (y1, w1) := foldlW f y xs w in f y1 x w1.
Proof.
  induction xs as [|x1 xs IH]; intros y w; simpl.
  - by destruct (f y x w) as [[? ?]| | |].
  - destruct (f y x1 w) as [[? ?]| | |]; simpl; try done.
Qed.
End compose.

Lemma composed_ok {X W} (mf : mem (@fn X W)) fs gs : Forall2 (fun r g => read mf (f_blk r) (f_off r) = Ok g) fs gs ->
  forall x w, composed_call (compose fs) mf x w = pipeline (reverse gs) x w.
Proof.
  unfold compose, pipeline. intros H. induction H as [|r g fs gs Hr Hfs IH]; intros x w; [done|].
  rewrite reverse_cons, foldlW_snoc. rewrite <- IH. destruct fs as [|r2 fs].
  - simpl. rewrite Hr. done.
  - change (composed_call (r :: r2 :: fs) mf x w) with
      (let* (y, w) := composed_call (r2 :: fs) mf x w in let* f := read mf (f_blk r) (f_off r) in f y w).
    apply bind_ext. intros [y w1]. by rewrite Hr.
Qed.

Lemma composed_dead {X W} (mf : mem (@fn X W)) fs b o : blocks mf !! b = Some None ->
  forall x w, composed_call (compose (fs ++ [FRef b o])) mf x w = UB UseAfterFree.
Proof.
  intros Hb x w. unfold compose. induction fs as [|r fs IH].
  - simpl. unfold read, with_block. by rewrite Hb.
  - simpl. destruct (fs ++ [FRef b o]) as [|f l] eqn:E; [by destruct fs|].
    change (composed_call (f :: l) mf x w) with (composed_call (compose (f :: l)) mf x w) in IH.
    cbn [composed_call] in *. unfold compose in IH. cbn [composed_call] in IH. rewrite IH. done.
Qed.
