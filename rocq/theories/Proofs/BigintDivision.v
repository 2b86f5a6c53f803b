(** Comparing and dividing big integers. *)
From Verif Require Import Base.Cpp Model.FmtInt Model.Dragonbox Model.Bigint Proofs.FmtIntProofs Proofs.DragonboxArith Proofs.BigintProofs.
Set Default Proof Using "Type".
Local Open Scope Z_scope.
Local Notation BB := (2 ^ 32).

(** A positive number, and what is left of one after a division by [y]. *)
Definition pos (x : bigint) : Prop := ok (bigits x) /\ 0 <= bexp x /\ top (bigits x).
Definition left_of (y x : bigint) : Prop :=
  ok (bigits x) /\ 0 <= bexp x /\ (top (bigits x) \/ (bigits x = [0] /\ bexp x <= bexp y)).

Lemma pos_left y x : pos x -> left_of y x.
Proof. intros (H1 & H2 & H3). split_and!; try done. by left. Qed.
Lemma left_nonempty y x : left_of y x -> bigits x <> [].
Proof. intros (_ & _ & [(? & H & _)|[H _]]) E; rewrite E in H; done. Qed.

Lemma val_split x n : ok (bigits x) -> 0 <= bexp x -> (n <= length (bigits x))%nat ->
  exists lo, val x = lo + 2 ^ (32 * (Z.of_nat n + bexp x)) * bval (drop n (bigits x)) /\
    0 <= lo < 2 ^ (32 * (Z.of_nat n + bexp x)) /\ lo = bval (take n (bigits x)) * 2 ^ (32 * bexp x).
Proof.
  intros Ho He Hn. exists (bval (take n (bigits x)) * 2 ^ (32 * bexp x)).
  assert (Hp : 2 ^ (32 * (Z.of_nat n + bexp x)) = p32 n * 2 ^ (32 * bexp x)).
  { unfold p32. rewrite <- Z.pow_add_r by lia. f_equal. lia. }
  assert (Hp2 : 0 < 2 ^ (32 * bexp x)) by (apply pow2_pos; lia).
  pose proof (bval_bound (take n (bigits x)) ltac:(by apply Forall_take)) as Hb. rewrite take_length, Nat.min_l in Hb by lia.
  split_and!; [|nia|nia|done].
  unfold val. rewrite (bval_take_drop n (bigits x)) at 1. rewrite Nat.min_l by lia. rewrite Hp. ring.
Qed.
Lemma val_bigit x n a : ok (bigits x) -> 0 <= bexp x -> bigits x !! n = Some a ->
  exists lo, val x = lo + 2 ^ (32 * (Z.of_nat n + bexp x)) * (a + BB * bval (drop (S n) (bigits x))) /\
    0 <= lo < 2 ^ (32 * (Z.of_nat n + bexp x)).
Proof.
  intros Ho He Ha. pose proof (lookup_lt_Some _ _ _ Ha).
  destruct (val_split x n Ho He ltac:(lia)) as (lo & H1 & H2 & _). exists lo. split; [|done].
  rewrite (drop_S _ _ _ Ha) in H1. exact H1.
Qed.
Lemma val_high x : ok (bigits x) -> 0 <= bexp x -> 0 <= val x < 2 ^ (32 * num_bigits x).
Proof.
  intros Ho He. destruct (val_split x (length (bigits x)) Ho He ltac:(lia)) as (lo & H1 & H2 & _).
  rewrite drop_all in H1. cbn [bval] in H1. unfold num_bigits. lia.
Qed.
Lemma val_low x : pos x -> 2 ^ (32 * (num_bigits x - 1)) <= val x.
Proof.
  intros (Ho & He & Ht). pose proof (top_low _ Ho Ht) as Hl. unfold val, num_bigits.
  destruct (decide (length (bigits x) = 0%nat)) as [E|E].
  { destruct (bigits x); [|done]. by destruct Ht as (? & ? & _). }
  replace (32 * (Z.of_nat (length (bigits x)) + bexp x - 1)) with (32 * Z.of_nat (length (bigits x) - 1) + 32 * bexp x) by lia.
  rewrite Z.pow_add_r by lia. apply Z.mul_le_mono_nonneg_r; [|exact Hl]. pose proof (pow2_pos (32 * bexp x)). lia.
Qed.
Lemma val_pos x : pos x -> 0 < val x.
Proof.
  intros (Ho & He & Ht). apply Z.mul_pos_pos; [by apply top_pos|]. apply pow2_pos. lia.
Qed.
Lemma val_zero x : bigits x = [0] -> val x = 0.
Proof. intros H. unfold val. rewrite H. cbn. lia. Qed.

Lemma compare_ok x y : left_of y x -> pos y ->
  wp (compare x y) (fun c => (0 <= c -> val y <= val x) /\
    (c < 0 -> val x <= val y /\ (val x = val y -> bexp y < bexp x /\ bval (bigits y) mod BB = 0))).
Proof.
  intros Hx Hy. pose proof (left_nonempty y x Hx) as Hnx. pose proof Hx as (Hox & Hex & Htx). pose proof Hy as (Hoy & Hey & Hty).
  unfold compare. destruct (decide (num_bigits x <> num_bigits y)) as [Hne|Heq].
  - apply wp_ok. pose proof (val_high x Hox Hex) as Hxh. pose proof (val_high y Hoy Hey) as Hyh.
    destruct (decide (num_bigits x > num_bigits y)) as [Hgt|Hle]; (split; intros Hc; try lia).
    + destruct Htx as [Htx|[Htx Hlt]].
      * pose proof (val_low x ltac:(done)) as Hl.
        assert (2 ^ (32 * num_bigits y) <= 2 ^ (32 * (num_bigits x - 1))) by (apply Z.pow_le_mono_r; lia). lia.
      * exfalso. unfold num_bigits in Hgt. rewrite Htx in Hgt. cbn [length] in Hgt.
        assert (length (bigits y) <> 0%nat) by (destruct (bigits y); [by destruct Hty as (? & ? & _)|done]). lia.
    + assert (val x < val y); [|lia]. pose proof (val_low y Hy).
      assert (2 ^ (32 * num_bigits x) <= 2 ^ (32 * (num_bigits y - 1))) by (apply Z.pow_le_mono_r; lia). lia.
  - apply dec_stable in Heq. unfold num_bigits in Heq. set (xs := bigits x) in *. set (ys := bigits y) in *.
    set (i0 := length xs) in *. set (j0 := length ys) in *.
    apply (wp_loop (fun '(i, j) => Z.of_nat i + bexp x = Z.of_nat j + bexp y /\ (i0 - j0 <= i <= i0)%nat /\ (j <= j0)%nat /\
        drop i xs = drop j ys) (fun '(i, j) => i - (i0 - j0))%nat).
    + lia.
    + split_and!; try lia. unfold i0, j0. by rewrite !drop_all.
    + intros [i j] (Hij & Hi & Hj & Hdrop).
      destruct (decide (i0 - j0 < i)%nat) as [Hlt|Hge].
      * assert (Hjpos : (0 < j)%nat) by lia.
        apply wp_bind. apply wp_get_lt; [fold i0; lia|]. intros a Ha.
        apply wp_bind. apply wp_get_lt; [fold j0; lia|]. intros b Hb.
        destruct (val_bigit x (i - 1) a Hox Hex Ha) as (lx & Hvx & Hlx).
        destruct (val_bigit y (j - 1) b Hoy Hey Hb) as (ly & Hvy & Hly).
        fold xs in Hvx. fold ys in Hvy.
        replace (S (i - 1)) with i in Hvx by lia. replace (S (j - 1)) with j in Hvy by lia.
        replace (Z.of_nat (j - 1) + bexp y) with (Z.of_nat (i - 1) + bexp x) in * by lia.
        rewrite <- Hdrop in Hvy. set (H := BB * bval (drop i xs)) in *.
        set (P := 2 ^ (32 * (Z.of_nat (i - 1) + bexp x))) in *.
        destruct (decide (a <> b)) as [Hab|Hab]; [|].
        -- apply wp_ok. destruct (decide (a > b)) as [Hg|Hl]; (split; intros Hc; try lia).
           ++ assert (P * (b + H + 1) <= P * (a + H)) by (apply Z.mul_le_mono_nonneg_l; lia). lia.
           ++ assert (P * (a + H + 1) <= P * (b + H)) by (apply Z.mul_le_mono_nonneg_l; lia). lia.
        -- apply wp_ok. split; [|lia]. split_and!; try lia. assert (a = b) as -> by (destruct (decide (a = b)); [done|by destruct Hab]).
           rewrite (drop_S _ _ _ Ha), (drop_S _ _ _ Hb).
           replace (S (i - 1)) with i by lia. replace (S (j - 1)) with j by lia. by rewrite Hdrop.
      * assert (Hli : (i <= length (bigits x))%nat) by (fold xs; fold i0; lia).
        assert (Hlj : (j <= length (bigits y))%nat) by (fold ys; fold j0; lia).
        destruct (val_split x i Hox Hex Hli) as (lx & Hvx & Hlx & Hlx0).
        destruct (val_split y j Hoy Hey Hlj) as (ly & Hvy & Hly & Hly0).
        fold xs in Hvx, Hlx0. fold ys in Hvy, Hly0. rewrite <- Hij, <- Hdrop in Hvy.
        destruct (decide (i <> j)) as [Hne|Hee]; apply wp_ok.
        -- destruct (decide (j < i)%nat) as [Hji|Hji]; (split; intros Hc; try lia).
           ++ assert (j = 0%nat) as -> by lia. rewrite ?take_0 in *; cbn [bval] in Hly0. lia.
           ++ assert (i = 0%nat) as -> by lia. rewrite ?take_0 in *; cbn [bval] in Hlx0. split; [lia|]. intros Hee. split; [lia|].
              assert (Hz : bval (take j ys) = 0).
              { assert (ly = 0) as E by lia. rewrite E in Hly0. symmetry in Hly0. apply Z.mul_eq_0 in Hly0 as [|Hz]; [done|].
                pose proof (pow2_pos (32 * bexp y)). lia. }
              rewrite (bval_take_drop j ys), Hz, Nat.min_l by lia. destruct j as [|j]; [lia|]. rewrite p32_S.
              rewrite Z.add_0_l, <- Z.mul_assoc, Z.mul_comm. apply Z.mod_mul. lia.
        -- split; [intros _|lia]. assert (i = j) as -> by (destruct (decide (i = j)); [done|by destruct Hee]).
           assert (j = 0%nat) as -> by lia. rewrite ?take_0 in *; cbn [bval] in Hlx0, Hly0. lia.
Qed.

(** ** Subtracting *)
Lemma drop_more {A} n (l l' : list A) : drop n l = drop n l' -> drop (S n) l = drop (S n) l'.
Proof.
  intros H. apply list_eq. intros k. rewrite !lookup_drop. apply (f_equal (.!! S k)) in H. rewrite !lookup_drop in H.
  by rewrite <- !Nat.add_succ_comm in H.
Qed.
Lemma subtract_bigits_ok bs i b o borrow : ok bs -> bs !! i = Some b -> 0 <= o < BB -> borrow = 0 \/ borrow = 1 ->
  exists borrow', (borrow' = 0 \/ borrow' = 1) /\ (b - o - borrow < 0 <-> borrow' = 1) /\
    wp (subtract_bigits bs i o borrow) (fun r => snd r = borrow' /\ ok (fst r) /\ length (fst r) = length bs /\
      bval (fst r) = bval bs - (o + borrow) * p32 i + borrow' * p32 (S i) /\
      drop (S i) (fst r) = drop (S i) bs).
Proof.
  intros Ho Hb Hobd Hbr. pose proof (Forall_lookup_1 _ _ _ _ Ho Hb) as Hbb. cbn in Hbb.
  pose proof (lookup_lt_Some _ _ _ Hb) as Hlt.
  exists (if decide (b - o - borrow < 0) then 1 else 0).
  split; [case_decide; lia|]. split; [case_decide; lia|].
  unfold subtract_bigits. apply wp_bind. eapply wp_get; [exact Hb|].
  set (d := b - o - borrow). set (r := if decide (d < 0) then 1 else 0).
  assert (Hw : wrap 64 d = d + r * 2 ^ 64).
  { rewrite wrap_mod by lia. unfold r. case_decide.
    - symmetry. apply (Z.mod_unique_pos _ _ (-1)); lia.
    - rewrite Z.mod_small by lia. lia. }
  assert (Hlow : wrap 32 (wrap 64 d) = d + r * BB).
  { rewrite Hw, wrap_mod by lia. replace (d + r * 2 ^ 64) with (d + r * BB + (r * (BB - 1)) * BB) by ring.
    rewrite Z.mod_add by lia. apply Z.mod_small. unfold r. case_decide; lia. }
  assert (Hhigh : wrap 32 (Z.shiftr (wrap 64 d) 63) = r).
  { rewrite Hw, Z.shiftr_div_pow2, wrap_mod by lia. unfold r. case_decide as Hd.
    - assert ((d + 1 * 2 ^ 64) / 2 ^ 63 = 1) as -> by (symmetry; apply (Z.div_unique_pos _ _ 1 (d + 2 ^ 63)); lia). done.
    - rewrite Z.div_small by lia. done. }
  apply wp_bind. rewrite Hlow, Hhigh. apply wp_put; [done|]. apply wp_ok. cbn [fst snd].
  assert (Hdr : 0 <= d + r * BB < BB) by (unfold r; case_decide; lia).
  split_and!.
  - done.
  - by apply Forall_insert.
  - by rewrite insert_length.
  - rewrite (bval_insert _ _ b) by done. rewrite p32_S. unfold d. ring.
  - rewrite drop_insert_gt by lia. done.
Qed.

Lemma subtract_aligned_ok x y : left_of y x -> pos y -> bexp x <= bexp y -> val y <= val x -> val x < 10 * val y ->
  wp (subtract_aligned x y) (fun z => left_of y z /\ bexp z <= bexp y /\ val z = val x - val y).
Proof.
  intros Hx Hy Hexp Hge Hlt10. pose proof Hx as (Hox & Hex & Htx). pose proof Hy as (Hoy & Hey & Hty).
  pose proof (val_pos y Hy) as Hvy.
  assert (Htopx : top (bigits x)).
  { destruct Htx as [|[H0 _]]; [done|]. pose proof (val_zero x H0). lia. }
  assert (Hpx : pos x) by done.
  unfold subtract_aligned. destruct (Z.leb_spec (bexp x) (bexp y)) as [_|]; [|lia]. cbn [asserted].
  apply wp_bind. eapply wp_mono; [apply compare_ok; done|]. intros c [_ Hc].
  assert (Hc0 : 0 <= c).
  { destruct (Z.le_gt_cases 0 c) as [|Hneg]; [done|]. destruct (Hc Hneg) as [H1 H2].
    assert (val x = val y) by lia. destruct (H2 ltac:(done)). lia. }
  destruct (Z.leb_spec 0 c) as [_|]; [|lia]. cbn [asserted]. clear c Hc Hc0.
  set (d := Z.to_nat (bexp y - bexp x)). set (n := length (bigits y)). set (xs := bigits x) in *. set (ys := bigits y) in *.
  (* in units of the lowest bigit of x *)
  assert (Hunit : val x = bval xs * 2 ^ (32 * bexp x) /\ val y = bval ys * p32 d * 2 ^ (32 * bexp x)).
  { split; [done|]. unfold val, p32. fold ys. rewrite <- Z.mul_assoc, <- Z.pow_add_r by lia. do 2 f_equal. lia. }
  destruct Hunit as [Hux Huy]. pose proof (pow2_pos (32 * bexp x) ltac:(lia)) as Hu.
  rewrite Hux, Huy in Hge. apply Z.mul_le_mono_pos_r in Hge; [|done].
  assert (Hlt : bval xs < 10 * (bval ys * p32 d)).
  { rewrite Hux, Huy, Z.mul_assoc in Hlt10. by apply Z.mul_lt_mono_pos_r in Hlt10. }
  assert (Hlenx : (length xs <> 0)%nat) by (destruct xs; [by destruct Htopx as (? & ? & _)|done]).
  assert (Hleny : (n <> 0)%nat) by (unfold n; destruct ys; [by destruct Hty as (? & ? & _)|done]).
  assert (Hlen1 : (d + n <= length xs)%nat).
  { destruct (decide (d + n <= length xs)%nat) as [|Hno]; [done|]. exfalso.
    pose proof (bval_bound xs Hox) as Hb. pose proof (top_low ys Hoy Hty) as Hl. fold n in Hl.
    assert (p32 (length xs) <= p32 (d + (n - 1))) by (unfold p32; apply Z.pow_le_mono_r; lia). rewrite p32_add in *.
    pose proof (p32_pos d). nia. }
  assert (Hlen2 : (length xs <= d + n + 1)%nat).
  { destruct (decide (length xs <= d + n + 1)%nat) as [|Hno]; [done|]. exfalso.
    pose proof (bval_bound ys Hoy) as Hb. fold n in Hb. pose proof (top_low xs Hox Htopx) as Hl.
    assert (p32 (d + n + 1) <= p32 (length xs - 1)) by (unfold p32; apply Z.pow_le_mono_r; lia).
    rewrite !p32_add in *. change (p32 1) with BB in *. pose proof (p32_pos d). nia. }
  apply wp_bind.
  apply (wp_for_up (fun j '(bs, br) => (br = 0 \/ br = 1) /\ ok bs /\ length bs = length xs /\
    drop (d + j) bs = drop (d + j) xs /\ bval bs - br * p32 (d + j) = bval xs - p32 d * bval (take j ys))).
  - rewrite ?take_0 in *; cbn [bval]. split_and!; try done; [by left|]. lia.
  - intros j [bs br] _ Hj (Hbr & Hob & Hlb & Hdrop & Hv). cbn in Hj.
    apply wp_bind. apply wp_get_lt; [done|]. intros o Ho.
    pose proof (Forall_lookup_1 _ _ _ _ Hoy Ho) as Hob2. cbn in Hob2.
    destruct (lookup_lt_is_Some_2 bs (d + j)) as [b Hb]; [fold n in Hj; lia|].
    destruct (subtract_bigits_ok bs (d + j) b o br Hob Hb Hob2 Hbr) as (br' & Hbr' & _ & Hwp).
    eapply wp_mono; [exact Hwp|]. intros [bs' br''] (E & H1 & H2 & H3 & H4). cbn [fst snd] in *. subst br''.
    split_and!; try done; [lia| |].
    + rewrite Nat.add_succ_r, H4. by apply drop_more.
    + rewrite Nat.add_succ_r, H3, (take_S_r _ _ o Ho), bval_app, take_length, Nat.min_l by (fold n; lia). cbn [bval].
      rewrite Z.mul_0_r, Z.add_0_r, Z.mul_add_distr_l, Z.mul_assoc, <- p32_add. lia.
  - cbn [Nat.add]. intros [bs br] (Hbr & Hob & Hlb & Hdrop & Hv).
    unfold n in Hv. rewrite firstn_all in Hv. fold n in Hv.
    assert (Hfin : forall bs', ok bs' -> length bs' = length xs -> bval bs' = bval xs - p32 d * bval ys ->
      wp (remove_leading_zeros (Bigint bs' (bexp x))) (fun z => left_of y z /\ bexp z <= bexp y /\ val z = val x - val y)).
    { intros bs' H1 H2 H3. eapply wp_mono; [apply remove_leading_zeros_ok; cbn [bigits]; [done|]|].
      - intros ->. cbn in H2. lia.
      - cbn [bigits bexp]. intros z (Z1 & Z2 & Z3 & Z4 & _). split_and!.
        + split_and!; [done|lia|]. destruct Z4 as [|Z4]; [by left|]. right. split; [done|lia].
        + lia.
        + rewrite Hux, Huy. unfold val. rewrite Z1, Z3, H3. ring. }
    assert (H0 : 0 <= bval xs - p32 d * bval ys) by lia.
    apply wp_bind. destruct Hbr as [-> | ->].
    + exists bs. split; [done|]. apply Hfin; try done. lia.
    + (* the borrow is taken from the top bigit *)
      assert (Hlen3 : (length xs = d + n + 1)%nat).
      { destruct (decide (length xs = d + n + 1)%nat) as [|Hno]; [done|]. exfalso.
        assert (E : length xs = (d + n)%nat) by lia. pose proof (bval_bound bs Hob) as Hb. rewrite Hlb, E in Hb. lia. }
      destruct (lookup_lt_is_Some_2 bs (d + n)) as [b Hb]; [lia|].
      assert (Hb0 : b <> 0).
      { assert (Hxb : drop (d + n) xs = [b]).
        { rewrite <- Hdrop. rewrite (drop_S _ _ _ Hb). rewrite drop_ge by lia. done. }
        destruct Htopx as (t & Ht & Ht0). rewrite <- (take_drop (d + n) xs), Hxb, last_snoc in Ht. by injection Ht as ->. }
      pose proof (Forall_lookup_1 _ _ _ _ Hob Hb) as Hbb. cbn in Hbb.
      destruct (subtract_bigits_ok bs (d + n) b 0 1 Hob Hb ltac:(lia) ltac:(by right)) as (br' & Hbr' & Hiff & Hwp).
      assert (br' = 0) as -> by lia.
      destruct Hwp as ([bs' br''] & Hrun & Hres). cbn [fst snd] in Hres. destruct Hres as (-> & H1 & H2 & H3 & _).
      exists bs'. split.
      * cbn [loop]. rewrite decide_True by lia. rewrite Hrun. cbn [bind]. rewrite decide_False by lia. done.
      * apply Hfin; [done|lia|]. rewrite H3. lia.
Qed.

(** ** Aligning *)
Lemma align_ok y x : left_of y x -> pos y ->
  wp (align x y) (fun z => left_of y z /\ bexp z <= bexp y /\ val z = val x /\ bexp z <= bexp x).
Proof.
  intros Hx (_ & Hey & _). pose proof Hx as (Hox & Hex & Htx). unfold align.
  destruct (decide (bexp x - bexp y <= 0)) as [Hd|Hd].
  - apply wp_ok. split_and!; try done; lia.
  - set (d := bexp x - bexp y) in *. set (xs := bigits x) in *. set (n := length xs).
    assert (Htop : top xs) by (destruct Htx as [|[_ ?]]; [done|lia]).
    apply wp_bind.
    apply (wp_for_down (fun i m => length m = (n + Z.to_nat d)%nat /\ (forall k, (k < i)%nat -> m !! k = Some <$> xs !! k) /\
      (forall k, (i <= k < n)%nat -> m !! (k + Z.to_nat d)%nat = Some <$> xs !! k))).
    + lia.
    + split_and!.
      * by rewrite app_length, fmap_length, replicate_length.
      * intros k Hk. rewrite lookup_app_l by (rewrite fmap_length; done). by rewrite list_lookup_fmap.
      * intros. lia.
    + intros i m _ Hi (Hl & Hlow & Hhigh).
      destruct (lookup_lt_is_Some_2 xs i Hi) as [b Hb].
      apply wp_bind. eapply wp_get; [rewrite Hlow by lia; by rewrite Hb|].
      apply wp_put; [lia|]. split_and!.
      * by rewrite insert_length.
      * intros k Hk. rewrite list_lookup_insert_ne by lia. apply Hlow. lia.
      * intros k Hk. destruct (decide (k = i)) as [->|Hne].
        -- rewrite list_lookup_insert by lia. by rewrite Hb.
        -- rewrite list_lookup_insert_ne by lia. apply Hhigh. lia.
    + intros m (Hl & _ & Hhigh). apply wp_bind.
      apply (wp_for_up (fun i m => length m = (n + Z.to_nat d)%nat /\ (forall k, (k < i)%nat -> m !! k = Some (Some 0)) /\
        (forall k, (k < n)%nat -> m !! (k + Z.to_nat d)%nat = Some <$> xs !! k))).
      * split_and!; [done|lia|]. intros k Hk. apply Hhigh. lia.
      * intros i m' _ Hi (Hl' & Hz & Hh). apply wp_put; [lia|]. split_and!.
        -- by rewrite insert_length.
        -- intros k Hk. destruct (decide (k = i)) as [->|Hne]; [by rewrite list_lookup_insert by lia|].
           rewrite list_lookup_insert_ne by lia. apply Hz. lia.
        -- intros k Hk. rewrite list_lookup_insert_ne by lia. by apply Hh.
      * cbn [Nat.add]. intros m' (Hl' & Hz & Hh).
        assert (Hm : m' = Some <$> (replicate (Z.to_nat d) 0 ++ xs)).
        { apply list_eq. intros k. rewrite list_lookup_fmap. destruct (decide (k < Z.to_nat d)%nat) as [Hk|Hk].
          - rewrite Hz by done. rewrite lookup_app_l by (rewrite replicate_length; done).
            by rewrite lookup_replicate_2.
          - rewrite lookup_app_r by (rewrite replicate_length; lia). rewrite replicate_length.
            destruct (decide (k < n + Z.to_nat d)%nat) as [Hk2|Hk2].
            + rewrite <- Hh by lia. f_equal. lia.
            + rewrite !lookup_ge_None_2 by (try fold n; lia). done. }
        rewrite Hm, read_all_some. apply wp_bind, wp_ok, wp_ok. cbn [bexp bigits].
        split_and!; try lia.
        -- split_and!; cbn [bexp bigits]; [|lia|left; by apply top_app].
           apply Forall_app. split; [apply Forall_replicate; lia|done].
        -- unfold val. cbn [bexp bigits]. rewrite bval_app, bval_zeros, replicate_length. fold xs.
           replace (bexp x) with (d + (bexp x - d)) at 2 by lia. rewrite (Z.mul_add_distr_l 32 d), Z.pow_add_r by lia.
           unfold p32. rewrite Z2Nat.id by lia. ring.
Qed.

(** ** Dividing *)
Lemma divmod_ok x y : left_of y x -> pos y -> val x < 10 * val y ->
  (bexp x <= bexp y \/ val x <> val y \/ bval (bigits y) mod BB <> 0) ->
  wp (divmod_assign x y) (fun '(z, q) => left_of y z /\ val z = val x mod val y /\ q = val x / val y /\
    (bexp z <= bexp y \/ z = x)).
Proof.
  intros Hx Hy Hlt Heq. pose proof (val_pos y Hy) as Hvy. unfold divmod_assign.
  assert (Hvx : 0 <= val x) by (destruct Hx as (Hox & Hex & _); by apply val_high).
  apply wp_bind. eapply wp_mono; [by apply compare_ok|]. intros c [Hc1 Hc2].
  destruct (decide (c < 0)) as [Hc|Hc].
  - apply wp_ok. destruct (Hc2 Hc) as [H1 H2].
    assert (val x < val y) by (destruct (decide (val x = val y)) as [E|]; [destruct (H2 E); lia|lia]).
    rewrite Z.mod_small, Z.div_small by lia. split_and!; try done. by right.
  - assert (Hge : val y <= val x) by (apply Hc1; lia). clear Hc1 Hc2 Hc Heq c.
    pose proof Hy as (Hoy & Hey & Hty). apply wp_bind. destruct Hty as (t & Ht & Ht0).
    eapply wp_get; [rewrite last_lookup in Ht; by rewrite <- Nat.sub_1_r in Ht|].
    destruct (Z.eqb_spec t 0) as [|_]; [done|]. cbn [negb asserted].
    apply wp_bind. eapply wp_mono; [by apply align_ok|]. intros x1 (Hx1 & Hex1 & Hvx1 & _).
    apply (wp_loop (fun '(z, q) => left_of y z /\ bexp z <= bexp y /\ val x = q * val y + val z /\ 0 <= q /\ val y <= val z /\ val z < 10 * val y)
      (fun '(z, q) => Z.to_nat (9 - q))).
    + lia.
    + split_and!; try done; lia.
    + intros [z q] (Hz & Hez & Hv & Hq & Hz1 & Hz2).
      apply wp_bind. eapply wp_mono; [by apply subtract_aligned_ok|]. intros z' (Hz' & Hez' & Hv').
      apply wp_bind. eapply wp_mono; [by apply compare_ok|]. intros c [Hc1 Hc2].
      assert (Hz0 : 0 <= val z') by (destruct Hz' as (A & B & _); by apply val_high).
      apply wp_ok. destruct (decide (0 <= c)) as [Hc|Hc].
      * specialize (Hc1 Hc). assert (q < 9) by nia. split; [|lia]. split_and!; try done; lia.
      * destruct (Hc2 ltac:(lia)) as [H1 H2].
        assert (val z' < val y) by (destruct (decide (val z' = val y)) as [E|]; [destruct (H2 E); lia|lia]).
        split_and!; try done.
        -- apply (Z.mod_unique_pos _ _ (q + 1)); lia.
        -- apply (Z.div_unique_pos _ _ _ (val z')); lia.
        -- by left.
Qed.

(** ** Comparing twice a number *)
Lemma get_bigit_ok x i : ok (bigits x) -> 0 <= bexp x -> 0 <= i ->
  get_bigit x i = Ok ((val x / 2 ^ (32 * i)) mod BB).
Proof.
  intros Ho He Hi. unfold get_bigit.
  assert (Hbig : forall k : nat, (bval (bigits x) / p32 k) mod BB = default 0 (bigits x !! k)) by (intros; by apply bval_bigit).
  destruct (decide (bexp x <= i)) as [Hge|Hlt].
  - assert (Hv : val x / 2 ^ (32 * i) = bval (bigits x) / p32 (Z.to_nat (i - bexp x))).
    { unfold val, p32. rewrite Z2Nat.id by lia. replace (32 * i) with (32 * (i - bexp x) + 32 * bexp x) by lia.
      rewrite Z.pow_add_r by lia. apply Z.div_mul_cancel_r; apply Z.pow_nonzero; lia. }
    rewrite Hv, Hbig. destruct (decide (bexp x <= i /\ i < num_bigits x)) as [H|H].
    + unfold num_bigits in H. destruct (lookup_lt_is_Some_2 (bigits x) (Z.to_nat (i - bexp x))) as [b Hb]; [lia|].
      unfold get. by rewrite Hb.
    + rewrite lookup_ge_None_2; [done|]. unfold num_bigits in H. lia.
  - rewrite decide_False by lia. f_equal.
    unfold val. replace (32 * bexp x) with (32 * (bexp x - i - 1) + 32 + 32 * i) by lia.
    rewrite !Z.pow_add_r by lia. rewrite Z.mul_assoc, Z.div_mul by (apply Z.pow_nonzero; lia).
    rewrite Z.mul_assoc. symmetry. apply Z.mod_mul. lia.
Qed.

Lemma add_compare_ok x y : left_of y x -> pos y ->
  wp (add_compare x x y) (fun c => (c > 0 <-> val y < 2 * val x) /\ (c = 0 <-> 2 * val x = val y)).
Proof.
  intros Hx Hy. pose proof Hx as (Hox & Hex & Htx). pose proof Hy as (Hoy & Hey & Hty).
  pose proof (val_high x Hox Hex) as Hxh. pose proof (val_high y Hoy Hey) as Hyh. pose proof (val_low y Hy) as Hyl.
  assert (Hnx : 0 <= num_bigits x) by (unfold num_bigits; lia). assert (Hny : 0 <= num_bigits y) by (unfold num_bigits; lia).
  unfold add_compare. rewrite Z.max_id. rewrite Z.min_id.
  destruct (decide (num_bigits x + 1 < num_bigits y)) as [H1|H1].
  - apply wp_ok. assert (2 * val x < val y); [|lia].
    assert (2 ^ (32 * (num_bigits x + 1)) <= 2 ^ (32 * (num_bigits y - 1))) by (apply Z.pow_le_mono_r; lia).
    assert (2 ^ (32 * (num_bigits x + 1)) = 2 ^ (32 * num_bigits x) * BB) by (rewrite <- Z.pow_add_r by lia; f_equal; lia).
    lia.
  - destruct (decide (num_bigits x > num_bigits y)) as [H2|H2].
    + apply wp_ok. assert (val y < 2 * val x); [|lia]. destruct Htx as [Htx|[Htx Hle]].
      * pose proof (val_low x ltac:(done)).
        assert (2 ^ (32 * num_bigits y) <= 2 ^ (32 * (num_bigits x - 1))) by (apply Z.pow_le_mono_r; lia).
        pose proof (pow2_pos (32 * num_bigits y) ltac:(lia)). lia.
      * exfalso. unfold num_bigits in H2. rewrite Htx in H2. cbn [length] in H2.
        assert (length (bigits y) <> 0%nat) by (destruct (bigits y); [by destruct Hty as (? & ? & _)|done]). lia.
    + set (lo := Z.min (bexp x) (bexp y)).
      assert (Hdivs : forall z, ok (bigits z) -> 0 <= bexp z -> lo <= bexp z -> val z = val z / 2 ^ (32 * lo) * 2 ^ (32 * lo)).
      { intros z Hoz Hez Hle. unfold val. replace (32 * bexp z) with (32 * (bexp z - lo) + 32 * lo) by lia.
        rewrite Z.pow_add_r, Z.mul_assoc, Z.div_mul by (try apply Z.pow_nonzero; lia). done. }
      assert (Hlo : lo <= num_bigits y) by (unfold num_bigits; lia).
      apply (wp_loop (fun '(i, br) => lo - 1 <= i <= num_bigits y - 1 /\ exists b, (b = 0 \/ b = 1) /\ br = b * BB /\
          val y / 2 ^ (32 * (i + 1)) - 2 * (val x / 2 ^ (32 * (i + 1))) = b)
        (fun '(i, br) => Z.to_nat (i + 1 - lo))).
      * lia.
      * split; [lia|]. exists 0. split_and!; [by left|lia|]. replace (num_bigits y - 1 + 1) with (num_bigits y) by lia.
        rewrite Z.div_small by lia.
        assert (2 ^ (32 * num_bigits x) <= 2 ^ (32 * num_bigits y)) by (apply Z.pow_le_mono_r; lia).
        rewrite Z.div_small by lia. lia.
      * intros [i br] (Hi & b & Hb & -> & Hdiff).
        destruct (decide (lo <= i)) as [Hge|Hlt].
        -- rewrite !get_bigit_ok by (try done; lia). cbn [bind].
           assert (Hsp : forall v, v / 2 ^ (32 * i) = BB * (v / 2 ^ (32 * (i + 1))) + (v / 2 ^ (32 * i)) mod BB).
           { intros v. replace (32 * (i + 1)) with (32 * i + 32) by lia. rewrite Z.pow_add_r by lia.
             rewrite <- Z.div_div by (try apply Z.pow_nonzero; lia). apply Z.div_mod. lia. }
           pose proof (Hsp (val x)) as Hsx. pose proof (Hsp (val y)) as Hsy.
           set (bx := (val x / 2 ^ (32 * i)) mod BB) in *. set (by_ := (val y / 2 ^ (32 * i)) mod BB) in *.
           assert (Hbx : 0 <= bx < BB) by (apply Z.mod_pos_bound; lia).
           assert (Hby : 0 <= by_ < BB) by (apply Z.mod_pos_bound; lia).
           rewrite (wrap_id 64 (bx + bx)) by lia. rewrite (wrap_id 64 (by_ + b * BB)) by lia.
           set (P := 2 ^ (32 * i)) in *. assert (HP : 0 < P) by (apply pow2_pos; lia).
           pose proof (Z.div_mod (val x) P ltac:(lia)) as Hdx. pose proof (Z.mod_pos_bound (val x) P HP) as Hmx.
           pose proof (Z.div_mod (val y) P ltac:(lia)) as Hdy. pose proof (Z.mod_pos_bound (val y) P HP) as Hmy.
           set (X := val x / P) in *. set (Y := val y / P) in *.
           assert (Hd : Y - 2 * X = by_ + b * BB - (bx + bx)) by lia.
           destruct (decide (bx + bx > by_ + b * BB)) as [Hgt|Hle].
           ++ apply wp_ok. assert (val y < 2 * val x); [|lia].
              assert (P * (Y + 1) <= P * (2 * X)) by (apply Z.mul_le_mono_nonneg_l; lia). lia.
           ++ rewrite (wrap_id 64 (by_ + b * BB - (bx + bx))) by lia.
              destruct (decide (by_ + b * BB - (bx + bx) > 1)) as [Hg1|Hg1]; apply wp_ok.
              ** assert (2 * val x < val y); [|lia].
                 assert (P * (2 * X + 2) <= P * Y) by (apply Z.mul_le_mono_nonneg_l; lia). lia.
              ** split; [|lia]. split; [lia|]. exists (by_ + b * BB - (bx + bx)).
                 rewrite Z.shiftl_mul_pow2 by lia. rewrite wrap_id by lia. replace (i - 1 + 1) with i by lia.
                 split_and!; [lia|done|]. exact Hd.
        -- apply wp_ok. replace (i + 1) with lo in Hdiff by lia.
           pose proof (Hdivs x Hox Hex ltac:(lia)) as Ex. pose proof (Hdivs y Hoy Hey ltac:(lia)) as Ey.
           pose proof (pow2_pos (32 * lo) ltac:(lia)) as HP. set (P := 2 ^ (32 * lo)) in *.
           destruct (decide (b * BB <> 0)) as [Hb0|Hb0].
           ++ assert (2 * val x < val y) by nia. lia.
           ++ assert (2 * val x = val y) by nia. lia.
Qed.
