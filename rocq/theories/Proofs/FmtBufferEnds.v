(** What the functions that format into a buffer leave behind. *)
From Verif Require Import Base.Cpp Base.Mem Model.FmtBuffer Spec.BufferSpec Proofs.FmtBufferProofs Proofs.FmtBufferWorld.
Set Default Proof Using "Type".
Local Open Scope Z_scope.

Lemma put_at_written i t cs : (i + length t <= length cs)%nat -> written_at i t cs (put_at i t cs).
Proof.
  intros H. split; [by apply put_at_length|]. intros k. unfold put_at.
  destruct (decide (i <= k < i + length t)%nat) as [Hk|Hk].
  - rewrite lookup_app_r by (rewrite take_length; lia). rewrite take_length, Nat.min_l by lia.
    rewrite lookup_app_l by (rewrite fmap_length; lia). by rewrite list_lookup_fmap.
  - destruct (decide (k < i)%nat).
    + rewrite lookup_app_l by (rewrite take_length; lia). by apply lookup_take.
    + rewrite lookup_app_r by (rewrite take_length; lia). rewrite take_length, Nat.min_l by lia.
      rewrite lookup_app_r by (rewrite fmap_length; lia). rewrite fmap_length, lookup_drop. f_equal. lia.
Qed.

(** Scratch space that comes and goes. *)
Lemma scratch_gone (m m1 : mem Z) n D m' (P : nat -> Prop) : alloc m n = (D, m1) -> leaks m' = leaks m ->
  (forall c, ~ P c -> c <> D -> blocks m' !! c = blocks m1 !! c) -> blocks m' !! D = Some None -> as_before P m m'.
Proof.
  intros [= <- <-] Hl Hs Hd. split; [done|]. intros c HP. destruct (decide (c = length (blocks m))) as [->|Hne].
  - right. split; [by apply lookup_ge_None|done].
  - left. rewrite Hs by done. cbn. destruct (decide (c < length (blocks m))%nat); [by apply lookup_app_l|].
    rewrite !lookup_ge_None_2; [done|lia|rewrite app_length; cbn; lia].
Qed.

Lemma format_to_n_ok m b cs i n ws : blk m b cs -> 0 <= n -> (i + Z.to_nat n <= length cs)%nat ->
  exists m' cs', format_to_n m b i n ws = Ok (m', (i + Nat.min (Z.to_nat n) (length (writes_text ws)))%nat, Z.of_nat (length (writes_text ws))) /\
    blk m' b cs' /\ written_at i (take (Z.to_nat n) (writes_text ws)) cs cs' /\ as_before (eq b) m m'.
Proof.
  intros Hb Hn Hroom. unfold format_to_n. destruct (alloc m (Z.to_nat buffer_size)) as [D m1] eqn:E. pose proof (alloc_blk _ _ _ _ E) as HD.
  assert (HDl : D = length (blocks m)) by (by injection E). assert (Hb1 : blk m1 b cs) by (injection E as _ <-; by apply lookup_app_l_Some).
  pose proof (blk_lt _ _ _ Hb) as Hblt. pose proof (blk_lt _ _ _ HD) as HDlt. assert (HDB : D <> b) by lia.
  assert (Hinv : fixed_inv b i D n m1 cs m1 (Buffer (Fixed b i D 0 n) b i 0 n) [] (length (writes_text ws) + 0)).
  { exists (replicate (Z.to_nat buffer_size) Raw). split_and!; [|apply replicate_length|left; cbn; split_and!; done || lia].
    rewrite take_nil, put_at_nil. unfold upd. cbn. destruct m1 as [bl l]. cbn in *. f_equal. rewrite (list_insert_id bl b) by exact Hb1. by rewrite list_insert_id. }
  pose proof (fixed_writes b i D n m1 cs Hb1 Hn Hroom HDlt HDB _ _ _ _ ws Hinv) as H. cbn [app] in H.
  destruct H as ([m2 o] & -> & H). cbn [bind].
  destruct (fixed_flush b i D n m1 cs Hb1 Hn Hroom HDlt HDB _ _ _ _ H) as (o' & Ho' & Hs' & Hf'). rewrite Ho'. cbn [bind]. rewrite Hf', Hs'.
  destruct H as (ds & -> & _). set (t := take (Z.to_nat n) (writes_text ws)) in *. unfold free.
  assert (HDb : blocks (upd (upd m1 b (put_at i t cs)) D ds) !! D = Some (Some ds)) by (cbn; apply list_lookup_insert; rewrite insert_length; lia).
  rewrite HDb. cbn [bind]. do 2 eexists. split; [by rewrite Z.add_0_r|]. split_and!.
  - unfold blk. cbn. rewrite !list_lookup_insert_ne by done. apply list_lookup_insert. by eapply blk_lt.
  - apply put_at_written. subst t. rewrite take_length. lia.
  - eapply scratch_gone; [exact E|cbn; injection E as _ <-; cbn; lia| |].
    + intros c Hc HcD. cbn. by rewrite !list_lookup_insert_ne.
    + cbn. apply list_lookup_insert. rewrite !insert_length. lia.
Qed.

Lemma format_to_array_ok m b cs i ws : blk m b cs -> (i + length (writes_text ws) <= length cs)%nat -> Z.of_nat (length cs) < size_max ->
  exists m' cs', format_to_array m b i ws = Ok (m', (i + length (writes_text ws))%nat) /\
    blk m' b cs' /\ written_at i (writes_text ws) cs cs' /\ as_before (eq b) m m'.
Proof.
  intros Hb Hroom Hmax. unfold format_to_array.
  assert (Hinv : plain_inv b i m cs m (Buffer Plain b i 0 size_max) [] (length (writes_text ws) + 0)).
  { split_and!; try done; [|cbn; lia]. rewrite put_at_nil. unfold upd. destruct m as [bl l]. f_equal. cbn. by rewrite list_insert_id. }
  pose proof (plain_writes b i m cs Hb Hmax _ _ _ _ ws Hinv) as H. cbn [app] in H.
  destruct H as ([m2 o] & -> & H). cbn [bind].
  destruct H as (-> & _ & _ & _ & -> & _ & ->). rewrite Nat2Z.id. do 2 eexists. split; [done|]. split; [by eapply blk_upd|]. split; [by apply put_at_written|]. split; [done|].
  intros c Hc. left. cbn. by rewrite list_lookup_insert_ne.
Qed.

Lemma formatted_size_ok m ws : exists m', formatted_size m ws = Ok (m', Z.of_nat (length (writes_text ws))) /\ as_before (fun _ => False) m m'.
Proof.
  unfold formatted_size. destruct (alloc m (Z.to_nat buffer_size)) as [D m1] eqn:E. pose proof (alloc_blk _ _ _ _ E) as HD. pose proof (blk_lt _ _ _ HD) as HDlt.
  assert (Hinv : counting_inv D m1 m1 (Buffer (Counting D 0) D 0 0 buffer_size) [] (length (writes_text ws) + 0)).
  { split_and!; [|done|].
    - exists (replicate (Z.to_nat buffer_size) Raw). split; [|apply replicate_length]. destruct m1 as [bl l]. unfold upd. cbn. f_equal. by rewrite list_insert_id.
    - exists 0. by split_and!. }
  pose proof (counting_writes D m1 _ _ _ _ ws Hinv) as H. cbn [app] in H.
  destruct H as ([m2 o] & -> & H). cbn [bind].
  destruct H as ((cs & -> & _) & _ & count & -> & _ & _ & _ & _ & Hc). unfold free.
  assert (HDb : blocks (upd m1 D cs) !! D = Some (Some cs)) by (by apply list_lookup_insert). rewrite HDb. cbn [bind]. rewrite Hc. eexists. split; [done|].
  eapply scratch_gone; [exact E|cbn; injection E as _ <-; cbn; lia| |].
  - intros c _ HcD. cbn. by rewrite !list_lookup_insert_ne.
  - cbn. apply list_lookup_insert. rewrite !insert_length. lia.
Qed.

Lemma format_to_iterator_ok m bound ws : (forall n, bound = Some n -> 0 <= n) ->
  exists m', format_to_iterator m bound ws =
    Ok (m', match bound with Some n => take (Z.to_nat n) (writes_text ws) | None => writes_text ws end,
        match bound with Some _ => Z.of_nat (length (writes_text ws)) | None => 0 end) /\ as_before (fun _ => False) m m'.
Proof.
  intros Hbound. unfold format_to_iterator. destruct (alloc m (Z.to_nat buffer_size)) as [D m1] eqn:E. pose proof (alloc_blk _ _ _ _ E) as HD. pose proof (blk_lt _ _ _ HD) as HDlt.
  assert (Hinv : iter_inv D bound m1 m1 (Buffer (Iter D [] ((fun n => (0, n)) <$> bound)) D 0 0 buffer_size) [] (length (writes_text ws) + 0)).
  { exists (replicate (Z.to_nat buffer_size) Raw), [], []. split_and!; try done; [|cbn; unfold given; destruct bound; [by rewrite take_nil|done]].
    destruct m1 as [bl l]. unfold upd. cbn. f_equal. by rewrite list_insert_id. }
  pose proof (iter_writes D bound m1 HDlt Hbound _ _ _ _ ws Hinv) as H. cbn [app] in H.
  destruct H as ([m2 o] & -> & H). cbn [bind].
  destruct (iter_flush D bound m1 HDlt Hbound _ _ _ _ H) as (o' & -> & Hs & _ & Hf). cbn [bind]. rewrite Hf, Hs.
  destruct H as (cs & _ & _ & -> & _). unfold free.
  assert (HDb : blocks (upd m1 D cs) !! D = Some (Some cs)) by (by apply list_lookup_insert). rewrite HDb. cbn [bind]. eexists. split; [unfold given; destruct bound; by rewrite Z.add_0_r|].
  eapply scratch_gone; [exact E|cbn; injection E as _ <-; cbn; lia| |].
  - intros c _ HcD. cbn. by rewrite !list_lookup_insert_ne.
  - cbn. apply list_lookup_insert. rewrite !insert_length. lia.
Qed.

Lemma vformat_buffer_ok m N ws : exists m', vformat_buffer m N ws = Ok (m', writes_text ws) /\ leaks m' = leaks m /\
  (forall c, (c < length (blocks m))%nat -> blocks m' !! c = blocks m !! c) /\ (forall c, (length (blocks m) <= c)%nat -> ~ alive m' c).
Proof.
  unfold vformat_buffer, memory_buffer. destruct (alloc m N) as [D m1] eqn:E. pose proof (alloc_blk _ _ _ _ E) as HD. pose proof (blk_lt _ _ _ HD) as HDlt.
  set (o := Buffer _ _ _ _ _).
  assert (Hh : holds N m1 o []).
  { split_and!; try done; cbn; [lia|exists (replicate N Raw); split; [done|apply replicate_length]|]. exists (replicate N Raw). split_and!; [done|rewrite replicate_length; lia|done]. }
  pose proof (memory_writes N m1 o [] ws Hh) as H. cbn [app] in H.
  destruct H as ([m2 o2] & -> & H). destruct H as [Hh2 (F1 & F2 & F3 & F4 & F5 & F6)]. cbn [bind].
  rewrite (contents_ok N _ _ _ Hh2). cbn [bind]. pose proof (destroy_ok N _ _ _ Hh2) as H.
  destruct H as (m3 & -> & H). destruct H as (D1 & D2 & D3 & D4). cbn [bind].
  injection E as HDe Hm1. assert (Hl1 : length (blocks m1) = S (length (blocks m))) by (rewrite <- Hm1; cbn; rewrite app_length; cbn; lia).
  assert (Howns : forall c, owns o c -> c = D) by (intros c [->| ->]; done).
  assert (Hlow : forall c, (c < length (blocks m))%nat -> ~ owns o2 c). { intros c Hc Ho. destruct (F2 c Ho) as [->%Howns|?]; lia. }
  eexists. split; [done|]. split_and!.
  - rewrite D3, F6, <- Hm1. done.
  - intros c Hc. rewrite D1 by (by apply Hlow). rewrite F1; [|lia| |by apply Hlow]; [|intros ->%Howns; lia]. rewrite <- Hm1. cbn. by apply lookup_app_l.
  - intros c Hc Hal. destruct (owns_dec o2 c) as [Ho|Ho]; [by apply (D2 c)|]. assert (Hal2 : alive m2 c) by (by rewrite <- (alive_same m2 m3) by (by apply D1)).
    destruct (decide (c = D)) as [->|Hne]; [by apply (F3 D); [left|..]|]. apply Ho. apply F4; [lia|done].
Qed.

(** ** Chars of the buffer itself *)
Lemma holds_put N m o w t : holds N m o w -> size o + Z.of_nat (length t) <= capacity o ->
  exists cs, blk m (block_of o) cs /\ (length w + length t <= length cs)%nat /\ take (length w) cs = Live <$> w /\
    holds N (upd m (block_of o) (put_at (length w) t cs)) (set_size o (size o + Z.of_nat (length t))) (w ++ t) /\
    frame m o (upd m (block_of o) (put_at (length w) t cs)) (set_size o (size o + Z.of_nat (length t))).
Proof.
  intros Hh1 Hfit. pose proof Hh1 as (Hf & Hc & Hs & Hcap & (ss & Hss & HN) & cs & Hb & Hlen & Hw). exists cs.
  rewrite Hs in Hfit. assert (Hl : (length w + length t <= length cs)%nat) by lia. split; [done|]. split; [done|]. split; [done|]. split; [|by eapply upd_owned].
  split_and!; try done; cbn; [rewrite app_length; lia|lia| |].
  - destruct (decide (store_of o = block_of o)) as [He|?]; [|exists ss; split; [by apply blk_upd_ne|done]].
    change (store_of (set_size _ _)) with (store_of o). rewrite He in Hss |- *. exists (put_at (length w) t cs). split; [by eapply blk_upd|].
    rewrite put_at_length by done. by rewrite <- (blk_fun _ _ _ _ Hss Hb).
  - exists (put_at (length w) t cs). split_and!; [by eapply blk_upd|rewrite put_at_length by done; lia|]. rewrite app_length, take_put_at, Hw, fmap_app by done. done.
Qed.

(** Room for more, and what is then at the old place. *)
Lemma make_room N m o w n : holds N m o w -> size o < n ->
  wp (try_reserve m o n) (fun '(m', o') => holds N m' o' w /\ frame m o m' o' /\ n <= capacity o' /\
    (n <= capacity o /\ m' = m /\ o' = o \/
     capacity o < n /\ block_of o' <> block_of o /\
     if decide (block_of o = store_of o) then blocks m' !! block_of o = blocks m !! block_of o else ~ alive m' (block_of o))).
Proof.
  intros Hh Hn. unfold try_reserve. destruct (decide (n > capacity o)) as [Hgt|Hle].
  - eapply wp_mono; [by eapply grow_memory|]. intros [m' o'] (Hh' & Hf & Hcap & Hb & Hstore & Hsame). split_and!; [done..|]. right. split; [lia|].
    assert (Hlt : (block_of o < length (blocks m))%nat) by (eapply alive_lt, holds_owned; [exact Hh|by right]). split; [lia|].
    destruct (decide (block_of o = store_of o)) as [E|E]; [by apply Hsame|]. pose proof Hf as (F1 & F2 & F3 & F4 & _). apply F3; [by right|].
    intros [H|H]; [congruence|lia].
  - apply wp_ok. split_and!; [done|apply frame_refl|lia|]. left. split_and!; [lia|done..].
Qed.

Lemma append_own N m o w k n : holds N m o w -> (k + n <= length w)%nat -> (0 < n)%nat ->
  if decide (size o + Z.of_nat n <= capacity o \/ block_of o = store_of o)
  then wp (append m o n (from_memory (block_of o) (cell_of o + k))) (fun '(m', o') => holds N m' o' (w ++ take n (drop k w)) /\ frame m o m' o')
  else append m o n (from_memory (block_of o) (cell_of o + k)) = UB UseAfterFree.
Proof.
  intros Hh Hk Hn. set (t := take n (drop k w)). assert (Ht : length t = n) by (subst t; rewrite take_length, drop_length; lia).
  pose proof Hh as (Hf & Hc & Hs & Hcap & _ & cs0 & Hb0 & Hlen0 & Hw0).
  remember (append m o n (from_memory (block_of o) (cell_of o + k))) as X eqn:HX.
  unfold append in HX. cbn [loop] in HX. unfold append_step at 1 in HX. rewrite (decide_False (P := 0 = Z.of_nat n)) in HX by lia. rewrite Z.sub_0_r in HX.
  destruct (make_room N m o w (size o + Z.of_nat n) Hh ltac:(lia)) as ([m' o'] & Hmr & Hh' & Hfr & Hroom & Hcase). rewrite Hmr in HX. cbn [bind] in HX.
  assert (Hsz : size o' = size o) by (destruct Hh' as (_ & _ & -> & _); done).
  rewrite (decide_False (P := capacity o' - size o' < Z.of_nat n)) in HX by lia. rewrite Nat2Z.id in HX.
  assert (Hcell : cell_of o' = 0%nat) by apply Hh'. rewrite Hcell, Hsz, Hc in HX. cbn [Nat.add] in HX.
  replace (Z.to_nat (size o)) with (length w) in HX by lia.
  assert (Hgo : blk m' (block_of o) cs0 -> (block_of o' = block_of o \/ block_of o' <> block_of o) ->
    exists cs, copy_in m' (block_of o') (length w) n (fun m k0 => from_memory (block_of o) k m (Z.to_nat 0 + k0)%nat) = Ok (upd m' (block_of o') (put_at (length w) t cs)) /\
      holds N (upd m' (block_of o') (put_at (length w) t cs)) (set_size o' (size o + Z.of_nat n)) (w ++ t) /\
      frame m' o' (upd m' (block_of o') (put_at (length w) t cs)) (set_size o' (size o + Z.of_nat n))).
  { intros Hold Heq. destruct (holds_put N m' o' w t Hh' ltac:(lia)) as (cs & Hcs & Hl & Hwcs & Hh2 & Hf2). rewrite Ht, Hsz in *. exists cs. split; [|done].
    rewrite <- Ht. apply copy_in_ok; [done|lia|]. intros j c Hj. unfold from_memory. cbn [Z.to_nat Nat.add].
    assert (Hj' : w !! (k + j)%nat = Some c) by (subst t; apply lookup_take_Some in Hj as [Hj _]; by rewrite lookup_drop in Hj).
    assert (Hin : take (length w) cs0 !! (k + j)%nat = Some (Live c)) by (by rewrite Hw0, list_lookup_fmap, Hj'). apply lookup_take_Some in Hin as [Hin Hlt].
    destruct Heq as [Heq|Heq].
    - rewrite <- Heq in *. rewrite (blk_fun _ _ _ _ Hold Hcs) in *. eapply read_ok; [by eapply blk_upd|].
      destruct (put_at_written (length w) (take j t) cs) as [_ Hput]; [rewrite take_length; lia|]. rewrite Hput. rewrite decide_False by lia. done.
    - eapply read_ok; [apply blk_upd_ne; [by apply not_eq_sym|exact Hold]|done]. }
  assert (Hend : forall m2 o2, append_step (from_memory (block_of o) k) (Z.of_nat n) (m2, o2, 0 + Z.of_nat n) = Ok (inr (m2, o2))).
  { intros. unfold append_step. rewrite decide_True by lia. done. }
  assert (Hlt : forall c, owns o c -> (c < length (blocks m))%nat) by (intros c Ho; by eapply alive_lt, holds_owned).
  destruct Hcase as [(Hle & -> & ->)|(Hgt & Hne & Hold)].
  - rewrite decide_True by (left; lia). destruct (Hgo Hb0) as (cs & Hcp & Hh2 & Hf2); [by left|]. rewrite Hcp in HX. cbn [bind] in HX.
    rewrite Hend in HX. subst X. apply wp_ok. split; [exact Hh2|exact Hf2].
  - destruct (decide (block_of o = store_of o)) as [E|E].
    + rewrite decide_True by (by right). destruct (Hgo ltac:(unfold blk in *; congruence)) as (cs & Hcp & Hh2 & Hf2); [by right|]. rewrite Hcp in HX. cbn [bind] in HX.
      rewrite Hend in HX. subst X. apply wp_ok. split; [exact Hh2|]. by eapply frame_trans.
    + rewrite decide_False by (intros [?|?]; [lia|done]). destruct n as [|n]; [lia|]. unfold copy_in in HX. cbn [for_up] in HX. unfold from_memory, read, with_block in HX. cbn [Z.to_nat] in HX. subst X.
      destruct (blocks m' !! block_of o) as [[cs|]|] eqn:Eb; [|done..]. destruct Hold. by exists cs.
Qed.
Lemma push_own N m o w k c : holds N m o w -> w !! k = Some c ->
  if decide (size o < capacity o \/ block_of o = store_of o)
  then wp (push_back m o (from_memory (block_of o) (cell_of o + k))) (fun '(m', o') => holds N m' o' (w ++ [c]) /\ frame m o m' o')
  else push_back m o (from_memory (block_of o) (cell_of o + k)) = UB UseAfterFree.
Proof.
  intros Hh Hk. pose proof Hh as (Hf & Hc & Hs & Hcap & _ & cs0 & Hb0 & Hlen0 & Hw0). unfold push_back.
  assert (Hin : take (length w) cs0 !! k = Some (Live c)) by (by rewrite Hw0, list_lookup_fmap, Hk). apply lookup_take_Some in Hin as [Hin Hkl].
  destruct (make_room N m o w (size o + 1) Hh ltac:(lia)) as ([m' o'] & -> & Hh' & Hfr & Hroom & Hcase). cbn [bind].
  assert (Hsz : size o' = size o) by (destruct Hh' as (_ & _ & -> & _); done). assert (Hcell : cell_of o' = 0%nat) by apply Hh'.
  assert (Hlt : forall c, owns o c -> (c < length (blocks m))%nat) by (intros x Ho; by eapply alive_lt, holds_owned).
  assert (Hgo : blk m' (block_of o) cs0 -> wp (let* c := from_memory (block_of o) (cell_of o + k) m' 0%nat in
      let* m := assign char_type m' (block_of o') (cell_of o' + Z.to_nat (size o')) c in Ok (m, set_size o' (size o' + 1)))
      (fun '(m', o') => holds N m' o' (w ++ [c]) /\ frame m o m' o')).
  { intros Hold. unfold from_memory. rewrite Hc, Nat.add_0_r. cbn [Nat.add]. rewrite (read_ok _ _ cs0 _ c Hold Hin). cbn [bind].
    destruct (holds_put N m' o' w [c] Hh') as (cs & Hcs & Hl & Hwcs & Hh2 & Hf2); [cbn; lia|]. cbn [length] in *.
    rewrite Hcell, Hsz, Hs, Nat2Z.id. cbn [Nat.add].
    assert (Has : assign char_type m' (block_of o') (length w) c = Ok (upd m' (block_of o') (put_at (length w) [c] cs))).
    { unfold assign, with_block. rewrite Hcs. pose proof (put_at_snoc (length w) [] c cs ltac:(cbn; lia)) as Hsn. rewrite put_at_nil in Hsn. cbn [length app] in Hsn. rewrite Nat.add_0_r in Hsn. rewrite <- Hsn.
      destruct (cs !! length w) as [[|x]|] eqn:El; [done..|]. apply lookup_ge_None in El. lia. }
    rewrite Has. cbn [bind]. apply wp_ok. rewrite <- Hs, <- Hsz. split; [exact Hh2|]. by eapply frame_trans. }
  destruct Hcase as [(Hle & -> & ->)|(Hgt & Hne & Hold)].
  - rewrite decide_True by (left; lia). by apply Hgo.
  - destruct (decide (block_of o = store_of o)) as [E|E].
    + rewrite decide_True by (by right). apply Hgo. unfold blk in *. congruence.
    + rewrite decide_False by (intros [?|?]; [lia|done]). unfold from_memory, read, with_block.
      destruct (blocks m' !! block_of o) as [[cs|]|] eqn:Eb; [|done..]. destruct Hold. by exists cs.
Qed.
