(** The buffers of formatted text: every write appends its text, whatever the buffer. *)
From Verif Require Import Base.Cpp Base.Mem Model.FmtBuffer Spec.BufferSpec.
Set Default Proof Using "Type".
Local Open Scope Z_scope.


(** ** Copying *)
Definition put_at (i : nat) (t : list Z) (cs : list (cell Z)) : list (cell Z) :=
  take i cs ++ (Live <$> t) ++ drop (i + length t) cs.
Lemma put_at_length i t cs : (i + length t <= length cs)%nat -> length (put_at i t cs) = length cs.
Proof. intros H. unfold put_at. rewrite !app_length, fmap_length, take_length, drop_length. lia. Qed.
Lemma put_at_nil i cs : put_at i [] cs = cs.
Proof. unfold put_at. cbn. rewrite Nat.add_0_r. apply take_drop. Qed.
Lemma put_at_snoc i t c cs : (i + length t < length cs)%nat -> <[(i + length t)%nat := Live c]> (put_at i t cs) = put_at i (t ++ [c]) cs.
Proof.
  intros H. unfold put_at. rewrite insert_app_r_alt by (rewrite take_length; lia). f_equal.
  rewrite take_length, Nat.min_l by lia. replace (i + length t - i)%nat with (length t) by lia.
  rewrite insert_app_r_alt by (rewrite fmap_length; lia). rewrite fmap_length, Nat.sub_diag.
  rewrite fmap_app, <- app_assoc. f_equal. rewrite app_length. cbn.
  destruct (drop (i + length t) cs) as [|x l] eqn:E.
  - apply (f_equal length) in E. rewrite drop_length in E. cbn in E. lia.
  - cbn. f_equal. rewrite (Nat.add_assoc i), <- drop_drop, E. done.
Qed.
Lemma put_at_app i t t' cs : (i + length t + length t' <= length cs)%nat -> put_at (i + length t) t' (put_at i t cs) = put_at i (t ++ t') cs.
Proof.
  intros H. unfold put_at. rewrite fmap_app, app_length, <- !app_assoc.
  assert (Hl : length (take i cs ++ (Live <$> t)) = (i + length t)%nat) by (rewrite app_length, fmap_length, take_length; lia).
  rewrite (app_assoc (take i cs) (Live <$> t)). rewrite take_app_alt by done. rewrite <- app_assoc. do 2 f_equal.
  f_equal. rewrite drop_app_ge by lia. rewrite Hl, drop_drop. f_equal. lia.
Qed.

Lemma for_up_snoc {S} n k (body : nat -> S -> res S) s :
  for_up (Datatypes.S n) k body s = let* s' := for_up n k body s in body (k + n)%nat s'.
Proof.
  revert k s. induction n as [|n IH]; intros k s.
  - cbn. rewrite Nat.add_0_r. by destruct (body k s).
  - change (for_up (Datatypes.S (Datatypes.S n)) k body s) with (let* s' := body k s in for_up (Datatypes.S n) (Datatypes.S k) body s').
    change (for_up (Datatypes.S n) k body s) with (let* s' := body k s in for_up n (Datatypes.S k) body s').
    destruct (body k s) as [s'| | |]; cbn [bind]; try done. rewrite IH. by replace (k + Datatypes.S n)%nat with (Datatypes.S k + n)%nat by lia.
Qed.
Lemma copy_in_ok m b cs i t src : blk m b cs -> (i + length t <= length cs)%nat ->
  (forall k c, t !! k = Some c -> src (upd m b (put_at i (take k t) cs)) k = Ok c) ->
  copy_in m b i (length t) src = Ok (upd m b (put_at i t cs)).
Proof.
  intros Hb Hl Hsrc. unfold copy_in.
  assert (H : forall n (Hn : (n <= length t)%nat), for_up n 0 (fun k m => let* c := src m k in assign char_type m b (i + k) c) m = Ok (upd m b (put_at i (take n t) cs))).
  { intros n. induction n as [|n IH]; intros Hn.
    - cbn. by rewrite put_at_nil, upd_same.
    - rewrite for_up_snoc, IH by lia. cbn [bind]. destruct (lookup_lt_is_Some_2 t n ltac:(lia)) as [c Hc].
      assert (Hlen : length (take n t) = n) by (rewrite take_length; lia).
      assert (Hpl : length (put_at i (take n t) cs) = length cs) by (apply put_at_length; lia).
      rewrite Nat.add_0_l, (Hsrc n c Hc). cbn [bind].
      destruct (lookup_lt_is_Some_2 (put_at i (take n t) cs) (i + n)%nat ltac:(lia)) as [x Hx].
      erewrite assign_triv; [|done|by eapply blk_upd|exact Hx]. rewrite upd_upd. do 2 f_equal.
      rewrite (take_S_r t n c Hc), <- put_at_snoc by lia. by rewrite Hlen. }
  specialize (H (length t) ltac:(lia)). by rewrite firstn_all in H.
Qed.

(** Copying, without what it copies: one description for all sources that read the chars of a text. *)
Lemma copy_text m b cs i t from n : blk m b cs -> n = length t -> (i + length t <= length cs)%nat -> forall u, take n (drop from u) = t ->
  copy_in m b i n (fun m k => from_text u m (from + k)%nat) = Ok (upd m b (put_at i t cs)).
Proof.
  intros Hb -> Hl u Hu. apply copy_in_ok; [done..|]. intros k c Hk. unfold from_text, get.
  rewrite <- Hu in Hk. apply lookup_take_Some in Hk as [Hk _]. rewrite lookup_drop in Hk. by rewrite Hk.
Qed.

Lemma read_chars_ok m b cs t i : blk m b cs -> (forall k c, t !! k = Some c -> cs !! (i + k)%nat = Some (Live c)) ->
  read_chars m b i (length t) = Ok t.
Proof.
  intros Hb. revert i. induction t as [|c t IH]; intros i Ht; [done|]. cbn [read_chars length].
  rewrite (read_ok m b cs i c Hb); [|specialize (Ht 0%nat c); rewrite Nat.add_0_r in Ht; by apply Ht]. cbn [bind].
  rewrite IH; [done|]. intros k c' Hk. replace (S i + k)%nat with (i + S k)%nat by lia. by apply Ht.
Qed.

(** ** What all buffers have in common *)
Section writes.
  (** The state of a buffer after the text [w], with room for [r] chars more where the buffer does not look. *)
  Context (Inv : mem Z -> buffer -> list Z -> nat -> Prop).
  Hypothesis Hsize : forall m o w r, Inv m o w r -> 0 <= size o <= capacity o.
  Hypothesis Hcopy : forall m o w r t, Inv m o w r -> size o + Z.of_nat (length t) <= capacity o -> (length t <= r)%nat ->
    exists cs, blk m (block_of o) cs /\ (cell_of o + Z.to_nat (size o) + length t <= length cs)%nat /\
      Inv (upd m (block_of o) (put_at (cell_of o + Z.to_nat (size o)) t cs)) (set_size o (size o + Z.of_nat (length t))) (w ++ t) (r - length t).
  Hypothesis Hgrow : forall m o w r n, Inv m o w r -> n > capacity o ->
    wp (grow m o n) (fun '(m', o') => Inv m' o' w r /\ size o' < capacity o').

  Lemma try_reserve_ok m o w r n : Inv m o w r -> n > size o ->
    wp (try_reserve m o n) (fun '(m', o') => Inv m' o' w r /\ size o' < capacity o').
  Proof using Hgrow Hsize.
    intros HI Hn. unfold try_reserve. destruct (decide (n > capacity o)); [by apply Hgrow|]. apply wp_ok. split; [done|]. lia.
  Qed.

  Lemma push_ok m o w r c : Inv m o w (S r) -> wp (push_back m o (from_text [c])) (fun '(m', o') => Inv m' o' (w ++ [c]) r).
  Proof using Hgrow Hsize Hcopy.
    intros HI. unfold push_back. apply wp_bind. eapply wp_mono; [apply try_reserve_ok; [exact HI|lia]|].
    intros [m' o'] [HI' Hlt]. cbn [from_text get lookup list_lookup bind].
    destruct (Hcopy m' o' w (S r) [c] HI' ltac:(cbn; lia) ltac:(cbn; lia)) as (cs & Hb & Hl & HI''). cbn [length] in *.
    destruct (lookup_lt_is_Some_2 cs (cell_of o' + Z.to_nat (size o'))%nat ltac:(lia)) as [x Hx].
    rewrite (assign_triv char_type m' _ cs _ c x eq_refl Hb Hx). cbn [bind]. apply wp_ok.
    pose proof (put_at_snoc (cell_of o' + Z.to_nat (size o')) [] c cs) as Hsn. cbn [length app] in Hsn. rewrite Nat.add_0_r, put_at_nil in Hsn.
    rewrite Hsn by lia. replace (S r - 1)%nat with r in HI'' by lia. exact HI''.
  Qed.

  Lemma append_ok m o w r t : Inv m o w (length t + r) -> wp (append m o (length t) (from_text t)) (fun '(m', o') => Inv m' o' (w ++ t) r).
  Proof using Hgrow Hsize Hcopy.
    intros HI. unfold append.
    apply (wp_loop (fun '(m, o, from) => 0 <= from <= Z.of_nat (length t) /\ Inv m o (w ++ take (Z.to_nat from) t) (length t - Z.to_nat from + r))
      (fun '(m, o, from) => Z.to_nat (Z.of_nat (length t) - from))).
    - lia.
    - split; [lia|]. cbn. by rewrite app_nil_r, Nat.sub_0_r.
    - intros [[m1 o1] from] [Hfrom HI1]. unfold append_step. destruct (decide (from = Z.of_nat (length t))) as [->|Hne].
      + apply wp_ok. rewrite Nat2Z.id, firstn_all, Nat.sub_diag in HI1. exact HI1.
      + apply wp_bind. eapply wp_mono; [apply try_reserve_ok; [exact HI1|lia]|]. intros [m2 o2] [HI2 Hlt].
        set (count := if decide (capacity o2 - size o2 < Z.of_nat (length t) - from) then capacity o2 - size o2 else Z.of_nat (length t) - from).
        assert (Hc : 0 < count <= Z.of_nat (length t) - from /\ size o2 + count <= capacity o2).
        { subst count. destruct (decide _); lia. }
        clearbody count. set (u := take (Z.to_nat count) (drop (Z.to_nat from) t)).
        assert (Hu : length u = Z.to_nat count) by (subst u; rewrite take_length, drop_length; lia).
        destruct (Hcopy m2 o2 _ _ u HI2 ltac:(lia) ltac:(lia)) as (cs & Hb & Hl & HI3).
        rewrite (copy_text m2 _ cs _ u (Z.to_nat from) (Z.to_nat count) Hb ltac:(done) Hl t eq_refl). cbn [bind]. apply wp_ok.
        split; [|lia]. split; [lia|]. rewrite Hu, Z2Nat.id in HI3 by lia. rewrite <- app_assoc in HI3.
        replace (Z.to_nat (from + count)) with (Z.to_nat from + Z.to_nat count)%nat by lia.
        rewrite <- (take_take_drop t). replace (length t - (Z.to_nat from + Z.to_nat count) + r)%nat with (length t - Z.to_nat from + r - Z.to_nat count)%nat by lia.
        exact HI3.
  Qed.

  Lemma direct_ok m o w r t : Inv m o w (length t + r) -> wp (write_direct m o t) (fun '(m', o') => Inv m' o' (w ++ t) r).
  Proof using Hgrow Hsize Hcopy.
    intros HI. unfold write_direct, to_pointer. destruct (decide (capacity o < size o + Z.of_nat (length t))) as [?|Hge].
    - cbn [bind]. by apply append_ok.
    - unfold try_resize, try_reserve. rewrite decide_False by lia. cbn [bind]. rewrite decide_True by lia. cbn [bind].
      destruct (Hcopy m o w _ t HI ltac:(lia) ltac:(lia)) as (cs & Hb & Hl & HI').
      replace (length t + r - length t)%nat with r in HI' by lia.
      change (block_of (set_size o (size o + Z.of_nat (length t)))) with (block_of o). change (cell_of (set_size o (size o + Z.of_nat (length t)))) with (cell_of o).
      pose proof (copy_text m _ cs _ t 0 (length t) Hb eq_refl Hl t (firstn_all t)) as Hc.
      change (fun m k => from_text t m (0 + k)%nat) with (from_text t) in Hc. rewrite Hc. cbn [bind]. by apply wp_ok.
  Qed.

  Theorem writes_ok m o w r ws : Inv m o w (length (writes_text ws) + r) -> wp (run_writes m o ws) (fun '(m', o') => Inv m' o' (w ++ writes_text ws) r).
  Proof using Hgrow Hsize Hcopy.
    revert m o w. induction ws as [|x ws IH]; intros m o w HI; cbn [run_writes].
    - apply wp_ok. cbn in *. by rewrite app_nil_r.
    - apply wp_bind. unfold writes_text in *. cbn [map concat] in *. fold (writes_text ws) in *. rewrite app_length, <- Nat.add_assoc in HI.
      eapply (wp_mono _ (fun '(m', o') => Inv m' o' (w ++ write_text x) (length (writes_text ws) + r))).
      + destruct x as [c|t|t|n]; cbn [run_write write_text length] in *; [by apply push_ok|by apply append_ok|by apply direct_ok|].
        rewrite app_nil_r. unfold reserve. destruct n as [|n].
        * unfold try_reserve. pose proof (Hsize _ _ _ _ HI). rewrite decide_False by lia. by apply wp_ok.
        * eapply wp_mono; [apply try_reserve_ok; [exact HI|lia]|]. by intros [m' o'] [? _].
      + intros [m' o'] HI'. rewrite app_assoc. by apply IH.
  Qed.
End writes.

(** ** The buffers *)

(** Only block [b] is changed, of those that there were. *)
Definition same_but (b : nat) (m m' : mem Z) : Prop := forall c, (c < length (blocks m))%nat -> c <> b -> blocks m' !! c = blocks m !! c.

Lemma take_put_at i t cs : (i + length t <= length cs)%nat -> take (i + length t) (put_at i t cs) = take i cs ++ (Live <$> t).
Proof.
  intros H. unfold put_at. rewrite app_assoc. apply take_app_alt. rewrite app_length, fmap_length, take_length. lia.
Qed.

Section counting.
  Context (data : nat) (m0 : mem Z).
  Definition counting_inv (m : mem Z) (o : buffer) (w : list Z) (r : nat) : Prop :=
    (exists cs, m = upd m0 data cs /\ length cs = Z.to_nat buffer_size) /\ (data < length (blocks m0))%nat /\
    exists count, fl o = Counting data count /\ block_of o = data /\ cell_of o = 0%nat /\ capacity o = buffer_size /\
      0 <= size o <= buffer_size /\ count + size o = Z.of_nat (length w).
  Lemma counting_writes m o w r ws : counting_inv m o w (length (writes_text ws) + r) ->
    wp (run_writes m o ws) (fun '(m', o') => counting_inv m' o' (w ++ writes_text ws) r).
  Proof.
    apply writes_ok; clear.
    - intros m o w r (_ & _ & count & _ & _ & _ & -> & ? & _). done.
    - intros m o w r t ((cs & -> & Hl) & Hlt & count & Hf & Hb & Hc & Hcap & Hs & Hn) Hfit Hr. exists cs. rewrite Hb, Hc.
      split_and!.
      + apply list_lookup_insert. done.
      + rewrite Hl. lia.
      + split_and!; [|done|].
        * eexists. split; [by rewrite upd_upd|]. rewrite put_at_length by lia. done.
        * exists count. cbn. rewrite app_length. split_and!; try done; lia.
    - intros m o w r n (Hm & Hlt & count & Hf & Hb & Hc & Hcap & Hs & Hn) Hgt. unfold grow. rewrite Hf.
      destruct (decide (size o <> buffer_size)) as [Hne|He]; apply wp_ok.
      + split; [|lia]. split_and!; [done..|]. exists count. done.
      + apply dec_stable in He. split; [|cbn; rewrite Hcap; done]. split_and!; [done..|]. exists (count + size o). cbn. unfold buffer_size in *.
        split_and!; try done; lia.
  Qed.
End counting.

Section plain.
  Context (B P : nat) (m0 : mem Z) (cs0 : list (cell Z)) (HB : blk m0 B cs0) (Hmax : Z.of_nat (length cs0) < size_max).
  Definition plain_inv (m : mem Z) (o : buffer) (w : list Z) (r : nat) : Prop :=
    m = upd m0 B (put_at P w cs0) /\ (P + length w + r <= length cs0)%nat /\
    fl o = Plain /\ block_of o = B /\ cell_of o = P /\ capacity o = size_max /\ size o = Z.of_nat (length w).
  Lemma plain_writes m o w r ws : plain_inv m o w (length (writes_text ws) + r) ->
    wp (run_writes m o ws) (fun '(m', o') => plain_inv m' o' (w ++ writes_text ws) r).
  Proof using HB Hmax.
    apply writes_ok; clear -HB Hmax.
    - intros m o w r (_ & Hr & _ & _ & _ & -> & ->). lia.
    - intros m o w r t (-> & Hr & Hf & Hb & Hc & Hcap & Hs) Hfit Ht. exists (put_at P w cs0). rewrite Hb, Hc, Hs, Nat2Z.id.
      assert (Hl : length (put_at P w cs0) = length cs0) by (apply put_at_length; lia). split_and!.
      + by eapply blk_upd.
      + lia.
      + split_and!; cbn; [|rewrite app_length; lia|done..|rewrite app_length; lia]. rewrite upd_upd. f_equal. apply put_at_app. lia.
    - intros m o w r n (-> & Hr & Hf & Hb & Hc & Hcap & Hs) Hgt. unfold grow. rewrite Hf. apply wp_ok. split; [done|]. lia.
  Qed.
End plain.

Lemma limit_over count limit n : limit <= count -> 0 <= n -> limit_fixed count limit n = (0, count + n).
Proof. intros. unfold limit_fixed. destruct (decide (limit > count)); [lia|]. destruct (decide (n < 0)); [lia|done]. Qed.
Section fixed.
  Context (B P D : nat) (L : Z) (m0 : mem Z) (cs0 : list (cell Z)).
  Hypothesis HB : blk m0 B cs0.
  Hypothesis HL : 0 <= L.
  Hypothesis Hroom : (P + Z.to_nat L <= length cs0)%nat.
  Hypothesis HD : (D < length (blocks m0))%nat.
  Hypothesis HDB : D <> B.
  Definition fixed_inv (m : mem Z) (o : buffer) (w : list Z) (r : nat) : Prop :=
    exists ds, m = upd (upd m0 B (put_at P (take (Z.to_nat L) w) cs0)) D ds /\ length ds = Z.to_nat buffer_size /\
    ((fl o = Fixed B P D 0 L /\ block_of o = B /\ cell_of o = P /\ capacity o = L /\ size o = Z.of_nat (length w) /\ size o <= L) \/
     (exists count, fl o = Fixed B (P + Z.to_nat L) D count L /\ block_of o = D /\ cell_of o = 0%nat /\ capacity o = buffer_size /\
        0 <= size o <= buffer_size /\ L <= count /\ count + size o = Z.of_nat (length w))).
  Lemma fixed_writes m o w r ws : fixed_inv m o w (length (writes_text ws) + r) ->
    wp (run_writes m o ws) (fun '(m', o') => fixed_inv m' o' (w ++ writes_text ws) r).
  Proof using HB HL Hroom HD HDB.
    apply writes_ok; clear -HB HL Hroom HD HDB.
    - intros m o w r (ds & _ & _ & [(_ & _ & _ & -> & -> & ?)|(count & _ & _ & _ & -> & ? & _)]); lia.
    - intros m o w r t (ds & -> & Hds & [(Hf & Hb & Hc & Hcap & Hs & Hle)|(count & Hf & Hb & Hc & Hcap & Hs & Hle & Hn)]) Hfit Ht; rewrite Hb, Hc.
      + exists (put_at P w cs0). rewrite (take_ge w) by lia. assert (Hl : length (put_at P w cs0) = length cs0) by (apply put_at_length; lia).
        split_and!.
        * apply blk_upd_ne; [done|]. by eapply blk_upd.
        * lia.
        * exists ds. split_and!; [|done|].
          -- rewrite (upd_comm _ D B) by done. rewrite upd_upd. do 2 f_equal. rewrite (take_ge (w ++ t)) by (rewrite app_length; lia).
             rewrite Hs, Nat2Z.id. apply put_at_app. lia.
          -- left. cbn. rewrite app_length. split_and!; try done; lia.
      + exists ds. split_and!.
        * apply list_lookup_insert. by rewrite length_upd.
        * lia.
        * eexists. split_and!; [by rewrite upd_upd, take_app_le by lia|rewrite put_at_length; lia|]. right. exists count. cbn. rewrite app_length.
          split_and!; try done; lia.
    - intros m o w r n (ds & -> & Hds & [(Hf & Hb & Hc & Hcap & Hs & Hle)|(count & Hf & Hb & Hc & Hcap & Hs & Hle & Hn)]) Hgt; unfold grow; rewrite Hf.
      + destruct (decide (size o = capacity o)) as [Heq|?].
        * unfold flush. rewrite Hf, Hb, Hc. rewrite Heq, Hcap.
          assert (Hlim : limit_fixed 0 L L = (L, L)). { unfold limit_fixed. destruct (decide (L > 0)); rewrite decide_False by lia; f_equal; lia. }
          rewrite Hlim. rewrite decide_True by done. cbn [bind]. apply wp_ok. split; [|done]. exists ds. split_and!; [done..|]. right. exists L.
          cbn. unfold buffer_size. split_and!; try done; lia.
        * apply wp_ok. split; [|lia]. exists ds. split_and!; [done..|]. left. done.
      + destruct (decide (size o = capacity o)) as [Heq|?].
        * unfold flush. rewrite Hf, Hb. rewrite limit_over by lia. rewrite decide_False by (intros [? _]; done).
          cbn [bind]. apply wp_ok. split; [|cbn; rewrite Hcap; done]. exists ds. split_and!; [done..|]. right. exists (count + size o).
          cbn. unfold buffer_size in *. split_and!; try done; lia.
        * apply wp_ok. split; [|lia]. exists ds. split_and!; [done..|]. right. exists count. done.
  Qed.
  (** At the end: what out() and count() say. *)
  Lemma fixed_flush m o w r : fixed_inv m o w r -> exists o', flush m o = Ok o' /\ size o' = 0 /\ 
    fl o' = Fixed B (P + Nat.min (Z.to_nat L) (length w)) D (Z.of_nat (length w)) L.
  Proof using HB HL Hroom HD HDB.
    intros (ds & -> & Hds & [(Hf & Hb & Hc & Hcap & Hs & Hle)|(count & Hf & Hb & Hc & Hcap & Hs & Hle & Hn)]); unfold flush; rewrite Hf, Hb.
    - assert (Hlim : limit_fixed 0 L (size o) = (size o, size o)).
      { unfold limit_fixed. destruct (decide (L > 0)); [|assert (size o = 0) as -> by lia; done]. destruct (decide (size o < L - 0)); f_equal; lia. }
      rewrite Hlim, Hc. rewrite decide_True by done. eexists. split; [done|]. cbn. rewrite Hs, Nat2Z.id. split; [done|]. do 2 f_equal. lia.
    - rewrite limit_over by lia. rewrite decide_False by (intros [? _]; done). eexists. split; [done|]. cbn. split; [done|]. f_equal; lia.
  Qed.
End fixed.

Section iter.
  Context (D : nat) (bound0 : option Z) (m0 : mem Z).
  Hypothesis HD : (D < length (blocks m0))%nat.
  Hypothesis Hbound : forall L, bound0 = Some L -> 0 <= L.
  Definition given (t : list Z) : list Z := match bound0 with Some L => take (Z.to_nat L) t | None => t end.
  Definition iter_inv (m : mem Z) (o : buffer) (w : list Z) (r : nat) : Prop :=
    exists cs f g, m = upd m0 D cs /\ length cs = Z.to_nat buffer_size /\ w = f ++ g /\ size o = Z.of_nat (length g) /\ size o <= buffer_size /\
      take (length g) cs = Live <$> g /\ block_of o = D /\ cell_of o = 0%nat /\ capacity o = buffer_size /\
      fl o = Iter D (given f) ((fun L => (Z.of_nat (length f), L)) <$> bound0).
  Lemma iter_flush m o w r : iter_inv m o w r -> exists o', flush m o = Ok o' /\ size o' = 0 /\ iter_inv m o' w r /\
    fl o' = Iter D (given w) ((fun L => (Z.of_nat (length w), L)) <$> bound0).
  Proof using HD Hbound.
    intros (cs & f & g & -> & Hl & -> & Hs & Hle & Hg & Hb & Hc & Hcap & Hf). unfold flush. rewrite Hf.
    set (n := match bound0 with Some L => Z.min (size o) (Z.max 0 (L - Z.of_nat (length f))) | None => size o end).
    assert (Hn : match (fun L => (Z.of_nat (length f), L)) <$> bound0 with
                 | Some (count, limit) => let '(n, count) := limit_fixed count limit (size o) in (n, Some (count, limit))
                 | None => (size o, None)
                 end = (n, (fun L => (Z.of_nat (length (f ++ g)), L)) <$> bound0)).
    { subst n. destruct bound0 as [L|]; [|done]. cbn. unfold limit_fixed. rewrite app_length, Nat2Z.inj_add, <- Hs. f_equal.
      destruct (decide (L > Z.of_nat (length f))); [destruct (decide (size o < L - Z.of_nat (length f))); lia|].
      destruct (decide (size o < 0)); lia. }
    rewrite Hn. assert (Hrange : 0 <= n <= size o) by (subst n; destruct bound0; lia).
    assert (Hread : read_chars (upd m0 D cs) D 0 (Z.to_nat n) = Ok (take (Z.to_nat n) g)).
    { replace (Z.to_nat n) with (length (take (Z.to_nat n) g)) at 1 by (rewrite take_length; lia).
      apply (read_chars_ok _ D cs); [by apply list_lookup_insert|]. intros k c Hk. apply lookup_take_Some in Hk as [Hk _].
      assert (Hk' : take (length g) cs !! k = Some (Live c)) by (by rewrite Hg, list_lookup_fmap, Hk). apply lookup_take_Some in Hk' as [? _]. done. }
    rewrite Hread. cbn [bind]. eexists. split; [done|]. cbn [set_size set_fl size fl].
    assert (Hgiv : given f ++ take (Z.to_nat n) g = given (f ++ g)).
    { unfold given. subst n. destruct bound0 as [L|] eqn:E; [|rewrite take_ge by lia; done]. specialize (Hbound L eq_refl).
      destruct (decide (L <= Z.of_nat (length f))) as [Hll|Hll].
      - rewrite take_app_le by lia. replace (Z.to_nat (Z.min _ _)) with 0%nat by lia. by rewrite app_nil_r.
      - rewrite (take_ge f) by lia. rewrite take_app_ge by lia. f_equal.
        destruct (decide (size o <= L - Z.of_nat (length f))); [rewrite !take_ge by lia; done|]. f_equal. lia. }
    rewrite Hgiv. split_and!; [done| |done]. exists cs, (f ++ g), []. cbn. rewrite app_nil_r. unfold buffer_size in *. split_and!; try done; lia.
  Qed.
  Lemma iter_writes m o w r ws : iter_inv m o w (length (writes_text ws) + r) ->
    wp (run_writes m o ws) (fun '(m', o') => iter_inv m' o' (w ++ writes_text ws) r).
  Proof using HD Hbound.
    apply writes_ok.
    - clear. intros m o w r (cs & f & g & _ & _ & _ & -> & ? & _ & _ & _ & -> & _). lia.
    - intros m1 o1 w1 r1 t (cs & f & g & -> & Hl & -> & Hs & Hle & Hg & Hb & Hc & Hcap & Hf) Hfit Ht. exists cs. rewrite Hb, Hc. split_and!.
      + by apply list_lookup_insert.
      + lia.
      + exists (put_at (length g) t cs), f, (g ++ t). rewrite Hs, Nat2Z.id, upd_upd. cbn. rewrite put_at_length, app_length, fmap_app, <- Hg by lia.
        rewrite take_put_at by lia. split_and!; try done; try lia. by rewrite app_assoc.
    - intros m1 o1 w1 r1 n HI Hgt. pose proof HI as (cs & f & g & -> & Hl & -> & Hs & Hle & Hg & Hb & Hc & Hcap & Hf). unfold grow. rewrite Hf.
      destruct (decide (size o1 = buffer_size)) as [Heq|Hne].
      + destruct (iter_flush _ _ _ _ HI) as (o' & -> & Hs' & HI' & _). cbn [bind]. apply wp_ok. split; [done|]. destruct HI' as (? & ? & ? & _ & _ & _ & _ & _ & _ & _ & _ & -> & _).
        rewrite Hs'. done.
      + apply wp_ok. split; [done|]. lia.
  Qed.
End iter.

(** ** Memory buffers *)

(** The blocks that a memory buffer owns: its inline array, and the array it points to. *)
Definition store_of (o : buffer) : nat := match fl o with Memory st => st | _ => 0%nat end.
Definition owns (o : buffer) (c : nat) : Prop := c = store_of o \/ c = block_of o.
Definition alive (m : mem Z) (c : nat) : Prop := exists cs, blk m c cs.
(** The buffer [o], with an inline array of [N] chars, holds [w]. *)
Definition holds (N : nat) (m : mem Z) (o : buffer) (w : list Z) : Prop :=
  fl o = Memory (store_of o) /\ cell_of o = 0%nat /\ size o = Z.of_nat (length w) /\ size o <= capacity o /\
  (exists ss, blk m (store_of o) ss /\ length ss = N) /\
  exists cs, blk m (block_of o) cs /\ capacity o <= Z.of_nat (length cs) /\ take (length w) cs = Live <$> w.
(** From [o] to [o']: other blocks are as before, blocks that are no longer owned are released, and blocks that are new
    to the buffer are new. *)
Definition frame (m : mem Z) (o : buffer) (m' : mem Z) (o' : buffer) : Prop :=
  (forall c, (c < length (blocks m))%nat -> ~ owns o c -> ~ owns o' c -> blocks m' !! c = blocks m !! c) /\
  (forall c, owns o' c -> owns o c \/ (length (blocks m) <= c)%nat) /\
  (forall c, owns o c -> ~ owns o' c -> ~ alive m' c) /\
  (forall c, (length (blocks m) <= c)%nat -> alive m' c -> owns o' c) /\
  (length (blocks m) <= length (blocks m'))%nat /\ leaks m' = leaks m.
Lemma alive_lt m c : alive m c -> (c < length (blocks m))%nat.
Proof. intros [cs H]. by eapply blk_lt. Qed.
Lemma frame_refl m o : frame m o m o.
Proof. split_and!; try done; [by left|]. intros c Hc H%alive_lt. lia. Qed.
Lemma owns_dec o c : owns o c \/ ~ owns o c.
Proof. unfold owns. destruct (decide (c = store_of o)), (decide (c = block_of o)); naive_solver. Qed.
Lemma holds_owned N m o w c : holds N m o w -> owns o c -> alive m c.
Proof. intros (_ & _ & _ & _ & (ss & ? & _) & cs & ? & _) [->| ->]; [by exists ss|by exists cs]. Qed.
Lemma alive_same m m' c : blocks m' !! c = blocks m !! c -> alive m' c <-> alive m c.
Proof. intros H. unfold alive, blk. by rewrite H. Qed.
Lemma frame_trans m o m' o' m'' o'' : (forall c, owns o c -> (c < length (blocks m))%nat) -> frame m o m' o' -> frame m' o' m'' o'' -> frame m o m'' o''.
Proof.
  intros Hlt (A1 & A2 & A3 & A4 & A5 & A6) (B1 & B2 & B3 & B4 & B5 & B6). split_and!; [..|lia|congruence].
  - intros c Hc H H''. destruct (owns_dec o' c) as [H'|H']; [destruct (A2 c H'); [done|lia]|]. rewrite B1 by (done || lia). by apply A1.
  - intros c H''. destruct (B2 c H'') as [H'|?]; [by apply A2|right; lia].
  - intros c H H''. destruct (owns_dec o' c) as [H'|H']; [by apply B3|]. specialize (Hlt c H).
    rewrite (alive_same m'); [by apply A3|]. apply B1; [lia|done..].
  - intros c Hc Hal. destruct (owns_dec o'' c) as [?|H'']; [done|]. exfalso. destruct (decide (length (blocks m') <= c)%nat) as [?|Hc']; [by apply H'', B4|].
    destruct (owns_dec o' c) as [H'|H']; [by apply (B3 c H' H'')|]. apply H', A4; [done|]. rewrite <- (alive_same m' m''); [done|]. apply B1; [lia|done..].
Qed.

Lemma upd_owned N m o w cs n : holds N m o w -> frame m o (upd m (block_of o) cs) (set_size o n).
Proof.
  intros Hh. split_and!; cbn; try done; rewrite ?insert_length; [|by left| |lia].
  - intros c _ Hc _. apply list_lookup_insert_ne. intros <-. apply Hc. by right.
  - intros c Hc H%alive_lt. rewrite length_upd in H. lia.
Qed.

Lemma grow_memory N m o w n : holds N m o w -> n > capacity o ->
  wp (grow m o n) (fun '(m', o') => holds N m' o' w /\ frame m o m' o' /\ n <= capacity o' /\
    block_of o' = length (blocks m) /\ store_of o' = store_of o /\ (block_of o = store_of o -> blocks m' !! block_of o = blocks m !! block_of o)).
Proof.
  intros (Hf & Hc & Hs & Hcap & (ss & Hst & HN) & cs & Hb & Hlen & Hw) Hn. unfold grow. rewrite Hf.
  set (ncap := if decide (n > capacity o + capacity o / 2) then n else capacity o + capacity o / 2).
  assert (Hncap : n <= ncap) by (subst ncap; destruct (decide _); lia). clearbody ncap.
  destruct (alloc m (Z.to_nat ncap)) as [new m1] eqn:Hal. pose proof (alloc_blk _ _ _ _ Hal) as Hnew.
  destruct (alloc_old _ _ _ _ _ _ Hal Hb) as [Hb1 Hneq]. destruct (alloc_old _ _ _ _ _ _ Hal Hst) as [Hst1 Hneq'].
  assert (Hlw : (0 + length w <= length (replicate (Z.to_nat ncap) (@Raw Z)))%nat) by (rewrite replicate_length; lia).
  rewrite Hs, Nat2Z.id. rewrite (copy_in_ok m1 new _ 0 w _ Hnew Hlw).
  2:{ intros k c Hk. unfold from_memory. apply (read_ok _ _ cs); [by apply blk_upd_ne|]. rewrite Hc. cbn.
      assert (Hk' : take (length w) cs !! k = Some (Live c)) by (by rewrite Hw, list_lookup_fmap, Hk). by apply lookup_take_Some in Hk' as [? _]. }
  cbn [bind]. set (m2 := upd m1 new _).
  assert (Hb2 : blk m2 (block_of o) cs) by (by apply blk_upd_ne). assert (Hst2 : blk m2 (store_of o) ss) by (by apply blk_upd_ne).
  assert (Hnew2 : blk m2 new (put_at 0 w (replicate (Z.to_nat ncap) Raw))) by (by eapply blk_upd).
  assert (Hlen1 : length (blocks m2) = S (length (blocks m)) /\ new = length (blocks m) /\ leaks m2 = leaks m /\ forall c, (c < length (blocks m))%nat -> blocks m2 !! c = blocks m !! c).
  { injection Hal as <- <-. split_and!; cbn; [rewrite insert_length, app_length; cbn; lia|done..|]. intros c Hlt. rewrite list_lookup_insert_ne by lia. by apply lookup_app_l. }
  clearbody m2. destruct Hlen1 as (Hl2 & Hnl & Hlk & Hold).
  set (o' := set_data o new 0 ncap). assert (Hso : store_of o' = store_of o) by done.
  assert (Hput : take (length w) (put_at 0 w (replicate (Z.to_nat ncap) Raw)) = Live <$> w) by (by rewrite (take_put_at 0 w) by done).
  assert (Hpl : length (put_at 0 w (replicate (Z.to_nat ncap) Raw)) = Z.to_nat ncap) by (rewrite put_at_length by done; apply replicate_length).
  destruct (decide (block_of o = store_of o)) as [Heq|Hne].
  - cbn [bind]. apply wp_ok. split_and!.
    + split_and!; try done; cbn; [lia|by exists ss|]. eexists. split_and!; [exact Hnew2|lia|done].
    + split_and!; try lia.
      * intros c Hlt _ _. by apply Hold.
      * intros c [->| ->]; [left; by left|right; cbn; lia].
      * intros c [->| ->] Hn'; [by destruct Hn'; left|]. destruct Hn'. left. by rewrite Heq.
      * intros c Hge Hal'%alive_lt. right. cbn. lia.
    + done.
    + done.
    + done.
    + intros _. apply Hold. by eapply blk_lt.
  - rewrite (free_ok char_type _ _ _ Hb2) by (by left). cbn [bind]. apply wp_ok. split_and!.
    + split_and!; try done; cbn; [lia|exists ss; unfold blk; cbn; by rewrite list_lookup_insert_ne|].
      eexists. split_and!; [unfold blk; cbn; rewrite list_lookup_insert_ne by congruence; exact Hnew2|lia|done].
    + split_and!; cbn; rewrite ?insert_length; try lia.
      * intros c Hlt Hc1 _. rewrite list_lookup_insert_ne; [by apply Hold|]. intros <-. apply Hc1. by right.
      * intros c [->| ->]; [left; by left|right; cbn; lia].
      * intros c [->| ->] Hn'; [by destruct Hn'; left|]. intros [xs Hxs]. unfold blk in Hxs. cbn in Hxs. rewrite list_lookup_insert in Hxs by (by eapply blk_lt). done.
      * intros c Hge Hal'%alive_lt. cbn in Hal'. rewrite insert_length in Hal'. right. cbn. lia.
    + done.
    + done.
    + done.
    + done.
Qed.

Lemma memory_writes N m o w ws : holds N m o w -> wp (run_writes m o ws) (fun '(m', o') => holds N m' o' (w ++ writes_text ws) /\ frame m o m' o').
Proof.
  intros Hh. assert (Hlt : forall c, owns o c -> (c < length (blocks m))%nat) by (intros c Hc; by eapply alive_lt, holds_owned).
  assert (H : wp (run_writes m o ws) (fun '(m', o') => holds N m' o' (w ++ writes_text ws) /\ frame m o m' o' /\ (0 <= 0)%nat)).
  2:{ eapply wp_mono; [exact H|]. intros [m' o'] (? & ? & _). done. }
  eapply (writes_ok (fun m' o' w' r => holds N m' o' w' /\ frame m o m' o' /\ (0 <= r)%nat)) with (r := 0%nat).
  - intros m1 o1 w1 r1 [(_ & _ & -> & ? & _) _]. lia.
  - intros m1 o1 w1 r1 t (Hh1 & Hfr & _) Hfit Ht. pose proof Hh1 as (Hf & Hc & Hs & Hcap & Hst & cs & Hb & Hlen & Hw). exists cs.
    rewrite Hs in Hfit. rewrite Hc, Hs, Nat2Z.id. assert (Hl : (length w1 + length t <= length cs)%nat) by lia. split_and!; [done|cbn; lia| | |lia].
    + split_and!; try done; cbn; [rewrite app_length; lia| |].
      * destruct Hst as (ss & Hss & HN). destruct (decide (store_of o1 = block_of o1)) as [He|?]; [|exists ss; split; [by apply blk_upd_ne|done]].
        change (store_of (set_size _ _)) with (store_of o1). rewrite He in Hss |- *. exists (put_at (length w1) t cs). split; [by eapply blk_upd|].
        rewrite put_at_length by done. by rewrite <- (blk_fun _ _ _ _ Hss Hb).
      * exists (put_at (length w1) t cs). split_and!; [by eapply blk_upd|rewrite put_at_length by done; lia|]. rewrite app_length, take_put_at, Hw, fmap_app by done. done.
    + eapply frame_trans; [done|exact Hfr|]. by eapply upd_owned.
  - intros m1 o1 w1 r1 n (Hh1 & Hfr & _) Hgt. eapply wp_mono; [by eapply grow_memory|]. intros [m2 o2] (Hh2 & Hfr2 & Hcap2 & _). split_and!; [done| |lia|].
    + by eapply frame_trans.
    + destruct Hh2 as (_ & _ & -> & _). destruct Hh1 as (_ & _ & Hs1 & Hc1 & _). lia.
  - split_and!; [done|apply frame_refl|lia].
Qed.
