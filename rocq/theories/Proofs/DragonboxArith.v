(** The machine arithmetic of the shortest-decimal algorithm computes the products, quotients and remainders it is
    meant to compute. *)
From Verif Require Import Base.Cpp Model.Dragonbox.
Set Default Proof Using "Type".
Local Open Scope Z_scope.

Lemma pow2_pos n : 0 <= n -> 0 < 2 ^ n.
Proof. intros. apply Z.pow_pos_nonneg; lia. Qed.
Lemma wrap_mod w n : 0 <= w -> wrap w n = n mod 2 ^ w.
Proof. apply Z.land_ones. Qed.
Lemma wrap_id w n : 0 <= n < 2 ^ w -> wrap w n = n.
Proof.
  intros H. destruct (Z.lt_ge_cases w 0) as [Hw|Hw]; [rewrite Z.pow_neg_r in H by done; lia|].
  rewrite wrap_mod by done. by apply Z.mod_small.
Qed.
Lemma wrap_bound w n : 0 <= w -> 0 <= wrap w n < 2 ^ w.
Proof. intros. rewrite wrap_mod by done. apply Z.mod_pos_bound, pow2_pos; lia. Qed.
Lemma shr_ok w n s : 0 <= s < w -> shr w n s = Ok (n / 2 ^ s).
Proof.
  intros H. unfold shr. rewrite (proj2 (Z.leb_le 0 s)), (proj2 (Z.ltb_lt s w)) by lia. cbn.
  by rewrite Z.shiftr_div_pow2 by lia.
Qed.
Lemma shl_ok w n s : 0 <= s < w -> shl w n s = Ok (wrap w (n * 2 ^ s)).
Proof.
  intros H. unfold shl. rewrite (proj2 (Z.leb_le 0 s)), (proj2 (Z.ltb_lt s w)) by lia. cbn.
  by rewrite Z.shiftl_mul_pow2 by lia.
Qed.
Lemma asserted_true {A} c (k : res A) : c = true -> asserted c k = k.
Proof. by intros ->. Qed.

Lemma mod_div a b c : 0 < b -> 0 < c -> (a mod (b * c)) / b = (a / b) mod c.
Proof.
  intros Hb Hc. rewrite Z.rem_mul_r by lia. rewrite Z.add_comm, Z.mul_comm, Z.div_add_l by lia.
  rewrite (Z.div_small (a mod b)) by (apply Z.mod_pos_bound; lia). lia.
Qed.
Lemma mod_mod_mul a b c : 0 < b -> 0 < c -> (a mod (b * c)) mod b = a mod b.
Proof.
  intros Hb Hc. rewrite Z.rem_mul_r by lia. rewrite Z.mul_comm, Z.mod_add by lia. apply Z.mod_mod. lia.
Qed.
Lemma pow2_div a m n : 0 <= m <= n -> (a mod 2 ^ n) / 2 ^ m = (a / 2 ^ m) mod 2 ^ (n - m).
Proof.
  intros H. replace n with (m + (n - m)) at 1 by lia. rewrite Z.pow_add_r by lia.
  apply mod_div; apply pow2_pos; lia.
Qed.
Lemma pow2_mod a m n : 0 <= m <= n -> (a mod 2 ^ n) mod 2 ^ m = a mod 2 ^ m.
Proof.
  intros H. replace n with (m + (n - m)) at 1 by lia. rewrite Z.pow_add_r by lia.
  apply mod_mod_mul; apply pow2_pos; lia.
Qed.
Lemma pow2_div_div a m n : 0 <= m -> 0 <= n -> a / 2 ^ m / 2 ^ n = a / 2 ^ (m + n).
Proof.
  intros. rewrite Z.pow_add_r, Z.div_div by (try apply Z.pow_nonzero; try apply pow2_pos; lia). done.
Qed.
Lemma pow2_mul_div a m n : 0 <= n <= m -> a * 2 ^ n / 2 ^ m = a / 2 ^ (m - n).
Proof.
  intros. replace m with ((m - n) + n) at 1 by lia. rewrite Z.pow_add_r by lia.
  apply Z.div_mul_cancel_r; apply Z.pow_nonzero; lia.
Qed.
Lemma land_1 n : Z.land n 1 = n mod 2.
Proof. change 1 with (Z.ones 1). by rewrite Z.land_ones. Qed.
Lemma odd_land n : negb (Z.land n 1 =? 0) = Z.odd n.
Proof. rewrite land_1, Zmod_odd. by destruct (Z.odd n). Qed.
Lemma odd_mod_pow2 n m : 1 <= m -> Z.odd (n mod 2 ^ m) = Z.odd n.
Proof.
  intros H. pose proof (Zmod_odd n) as H1. pose proof (Zmod_odd (n mod 2 ^ m)) as H2.
  pose proof (pow2_mod n 1 m ltac:(lia)) as H3. change (2 ^ 1) with 2 in H3. rewrite H3, H1 in H2.
  by destruct (Z.odd n), (Z.odd (n mod 2 ^ m)).
Qed.
Lemma land_mask n k : 0 <= k -> Z.land n (2 ^ k - 1) = n mod 2 ^ k.
Proof. intros. replace (2 ^ k - 1) with (Z.ones k) by (rewrite Z.ones_equiv; lia). by apply Z.land_ones. Qed.
Lemma lor_split x y k : 0 <= k -> 0 <= y < 2 ^ k -> Z.lor y (x * 2 ^ k) = x * 2 ^ k + y.
Proof.
  intros Hk Hy. rewrite <- Z.shiftl_mul_pow2 by done.
  assert (Hl : Z.land y (Z.shiftl x k) = 0).
  { apply Z.bits_inj'. intros i Hi. rewrite Z.land_spec, Z.bits_0.
    destruct (Z.lt_ge_cases i k).
    - by rewrite Z.shiftl_spec_low, andb_false_r.
    - assert (y = 0 \/ 0 < y) as [->|Hpos] by lia; [by rewrite Z.bits_0|].
      rewrite Z.bits_above_log2; [done|lia|]. assert (Z.log2 y < k) by (apply Z.log2_lt_pow2; lia). lia. }
  rewrite Z.shiftl_mul_pow2 in * by done. rewrite <- Z.lxor_lor, <- Z.add_nocarry_lxor by done. lia.
Qed.

(** Division by a constant with a multiplication. *)
Lemma magic_div n M d k : 0 < d -> 0 <= k -> 0 <= n -> 2 ^ k <= M * d -> n * (M * d - 2 ^ k) < 2 ^ k ->
  n * M / 2 ^ k = n / d.
Proof.
  intros Hd Hk Hn Hge Hlt. pose proof (pow2_pos k Hk) as Hp.
  set (P := 2 ^ k) in *. clearbody P. set (err := M * d - P) in *.
  pose proof (Z.div_mod n d ltac:(lia)) as Hdm. pose proof (Z.mod_pos_bound n d ltac:(lia)) as Hm.
  set (a := n / d) in *. set (b := n mod d) in *. clearbody a b.
  symmetry. apply (Z.div_unique_pos _ _ _ (a * err + b * M)).
  - assert (0 <= a) by nia.
    assert (0 < M) by nia.
    split; [nia|]. assert (d * (a * err + b * M) < d * P); [|nia].
    assert (Hmd : M * d = P + err) by lia.
    replace (d * (a * err + b * M)) with (d * a * err + b * (M * d)) by ring. rewrite Hmd.
    assert (Hda : d * a = n - b) by lia. rewrite Hda.
    replace ((n - b) * err + b * (P + err)) with (n * err + b * P) by ring.
    assert (b * P <= (d - 1) * P) by (apply Z.mul_le_mono_nonneg_r; lia). lia.
  - rewrite Hdm. subst err. ring.
Qed.

(** check_divisibility_and_divide_by_pow10. *)
Definition check_div_table (d : Z) : bool :=
  forallb (fun i => let n := Z.of_nat i in
    match check_divisibility_and_divide_by_pow10 d n with
    | Ok (q, b) => (q =? n / d) && Bool.eqb b (n mod d =? 0)
    | _ => false end) (seq 0 (Z.to_nat (d * 10 + 1))).
Lemma check_div_ok d n : d = 10 \/ d = 100 -> 0 <= n <= d * 10 ->
  check_divisibility_and_divide_by_pow10 d n = Ok (n / d, n mod d =? 0).
Proof.
  intros Hd Hn.
  assert (Ht : check_div_table d = true) by (destruct Hd as [-> | ->]; vm_compute; done).
  unfold check_div_table in Ht. rewrite forallb_forall in Ht.
  specialize (Ht (Z.to_nat n)). rewrite Z2Nat.id in Ht by lia.
  assert (Hin : In (Z.to_nat n) (seq 0 (Z.to_nat (d * 10 + 1)))) by (apply in_seq; lia).
  specialize (Ht Hin).
  destruct (check_divisibility_and_divide_by_pow10 d n) as [[q b]| | |]; try done.
  apply andb_prop in Ht as [Hq Hb]. apply Z.eqb_eq in Hq. apply Bool.eqb_prop in Hb. by subst.
Qed.

(** Division by 25 or 5 with a modular inverse, then a rotation: the result is small exactly if there is no
    remainder. *)
Lemma rotr_eq w t k : 0 <= k <= w -> 0 <= t < 2 ^ w ->
  rotr w t k = t mod 2 ^ k * 2 ^ (w - k) + t / 2 ^ k.
Proof.
  intros Hk Ht. unfold rotr. rewrite Z.shiftr_div_pow2, Z.shiftl_mul_pow2 by lia.
  assert (Hw : wrap w (t * 2 ^ (w - k)) = t mod 2 ^ k * 2 ^ (w - k)).
  { rewrite wrap_mod by lia. replace w with (k + (w - k)) at 2 by lia. rewrite Z.pow_add_r by lia.
    apply Z.mul_mod_distr_r; apply Z.pow_nonzero; lia. }
  rewrite Hw. apply lor_split; [lia|]. split; [apply Z.div_pos; [lia|apply pow2_pos; lia]|].
  apply Z.div_lt_upper_bound; [apply pow2_pos; lia|]. rewrite <- Z.pow_add_r by lia.
  replace (k + (w - k)) with w by lia. lia.
Qed.

Lemma rotr_test w k d inv n :
  0 <= k <= w -> 0 < d -> (inv * d) mod 2 ^ w = 1 -> 2 ^ k <= d * 2 ^ k < 2 ^ w -> 0 <= n < 2 ^ w ->
  let q := rotr w (wrap w (n * inv)) k in
  (q <= (2 ^ w - 1) / (d * 2 ^ k) -> n = d * 2 ^ k * q /\ 0 <= q) /\
  ((d * 2 ^ k | n) -> q <= (2 ^ w - 1) / (d * 2 ^ k)).
Proof.
  intros Hk Hd Hinv Hsz Hn q.
  assert (HP : 0 < 2 ^ w) by (apply pow2_pos; lia). assert (HK : 0 < 2 ^ k) by (apply pow2_pos; lia).
  assert (HWK : 2 ^ w = 2 ^ (w - k) * 2 ^ k) by (rewrite <- Z.pow_add_r by lia; f_equal; lia).
  assert (HM : 0 < 2 ^ (w - k)) by (apply pow2_pos; lia).
  set (t := wrap w (n * inv)) in *.
  assert (Ht : 0 <= t < 2 ^ w) by (apply wrap_bound; lia).
  assert (Hq : q = t mod 2 ^ k * 2 ^ (w - k) + t / 2 ^ k) by (by apply rotr_eq).
  assert (Htd : (t * d) mod 2 ^ w = n).
  { unfold t. rewrite wrap_mod by lia. rewrite Z.mul_mod_idemp_l by lia. replace (n * inv * d) with (n * (inv * d)) by ring.
    rewrite <- Z.mul_mod_idemp_r by lia. rewrite Hinv, Z.mul_1_r. by apply Z.mod_small. }
  assert (H1 : 1 < 2 ^ w) by lia.
  split.
  - intros Hle.
    assert (Hdiv : (2 ^ w - 1) / (d * 2 ^ k) < 2 ^ (w - k)).
    { apply Z.div_lt_upper_bound; [lia|]. nia. }
    pose proof (Z.div_mod t (2 ^ k) ltac:(lia)) as Hdm. pose proof (Z.mod_pos_bound t (2 ^ k) HK) as Hmb.
    assert (H0 : 0 <= t / 2 ^ k) by (apply Z.div_pos; lia).
    assert (Hz : t mod 2 ^ k = 0).
    { set (z := t mod 2 ^ k) in *. clearbody z. clear -Hq Hle Hdiv H0 Hmb HM. nia. }
    rewrite Hz in *. assert (Hq2 : q = t / 2 ^ k) by lia. rewrite <- Hq2 in *. split; [|lia].
    assert (Hb : d * 2 ^ k * q <= 2 ^ w - 1).
    { transitivity (d * 2 ^ k * ((2 ^ w - 1) / (d * 2 ^ k))); [apply Z.mul_le_mono_nonneg_l; lia|].
      apply Z.mul_div_le. lia. }
    rewrite <- Htd. rewrite Hdm. rewrite Z.mod_small; [ring|]. split; [|lia].
    apply Z.mul_nonneg_nonneg; [|lia]. nia.
  - intros [m Hm].
    assert (Hm0 : 0 <= m) by nia.
    assert (Ht2 : t = 2 ^ k * m).
    { unfold t. rewrite wrap_mod by lia. rewrite Hm. replace (m * (d * 2 ^ k) * inv) with (2 ^ k * m * (inv * d)) by ring.
      rewrite <- Z.mul_mod_idemp_r by lia. rewrite Hinv, Z.mul_1_r. apply Z.mod_small. nia. }
    rewrite Hq, Ht2. rewrite (Z.mul_comm (2 ^ k)), Z.mod_mul, Z.div_mul by lia.
    apply Z.div_le_lower_bound; [lia|]. lia.
Qed.

Lemma strip_ok w inv5 inv25 n s :
  w = 32 \/ w = 64 -> (inv5 * 5) mod 2 ^ w = 1 -> (inv25 * 25) mod 2 ^ w = 1 ->
  0 < n < 2 ^ w -> 0 <= s -> s mod 2 = 0 ->
  exists n' t, strip w inv5 inv25 n s = Ok (n', s + t) /\ 0 <= t /\ n = n' * 10 ^ t /\ ~ (10 | n').
Proof.
  intros Hw H5 H25 Hn Hs Hs2.
  assert (Hwle : 0 <= 2 <= w) by lia. assert (Hw1 : 0 <= 1 <= w) by lia.
  assert (Hsz : 100 < 2 ^ w) by (destruct Hw as [-> | ->]; lia).
  enough (wp (strip w inv5 inv25 n s)
    (fun '(n', s') => exists t, s' = s + t /\ 0 <= t /\ n = n' * 10 ^ t /\ ~ (10 | n'))) as Hwp.
  { destruct Hwp as ([n' s'] & -> & t & -> & ? & ? & ?). eauto 10. }
  unfold strip. apply wp_bind.
  apply (wp_loop
    (fun '(m, v) => 0 < m < 2 ^ w /\ v mod 2 = 0 /\ exists t, 0 <= t /\ v = s + t /\ n = m * 10 ^ t)
    (fun '(m, _) => Z.to_nat (Z.log2 m))).
  - assert (Z.log2 n < w) by (apply Z.log2_lt_pow2; lia). lia.
  - split; [done|]. split; [done|]. exists 0. rewrite Z.mul_1_r, Z.add_0_r. split_and!; [lia|lia|done].
  - intros [m v] (Hm & Hv2 & t & Ht & -> & Hnt). apply wp_ok. cbn zeta.
    destruct (rotr_test w 2 25 inv25 m Hwle ltac:(lia) H25 ltac:(lia) ltac:(lia)) as [Hyes Hno].
    change (25 * 2 ^ 2) with 100 in *. set (q := rotr w (wrap w (m * inv25)) 2) in *.
    destruct (Z.ltb_spec ((2 ^ w - 1) / 100) q) as [Hlt|Hle].
    + destruct (rotr_test w 1 5 inv5 m Hw1 ltac:(lia) H5 ltac:(lia) ltac:(lia)) as [Hyes5 Hno5].
      change (5 * 2 ^ 1) with 10 in *. set (q5 := rotr w (wrap w (m * inv5)) 1) in *.
      assert (H100 : ~ (100 | m)) by (intros H; apply Hno in H; lia).
      destruct (Z.leb_spec q5 ((2 ^ w - 1) / 10)) as [Hle5|Hgt5].
      * destruct (Hyes5 Hle5) as [Hm10 Hq0]. apply wp_ok. exists (t + 1). split_and!.
        -- rewrite (Z.add_assoc s t 1).
           assert (Hev : s + t = 2 * ((s + t) / 2)) by (pose proof (Z.div_mod (s + t) 2); lia).
           rewrite Hev at 1. rewrite Z.lor_comm, (Z.mul_comm 2).
           pose proof (lor_split ((s + t) / 2) 1 1 ltac:(lia) ltac:(lia)) as Hl.
           change (2 ^ 1) with 2 in Hl. rewrite Hl. lia.
        -- lia.
        -- rewrite Hnt, Hm10, Z.pow_add_r by lia. ring.
        -- intros [j Hj]. apply H100. exists j. lia.
      * apply wp_ok. exists t. split_and!; [done|done|done|]. intros H. apply Hno5 in H. lia.
    + destruct (Hyes Hle) as [Hm100 Hq0]. split.
      * split; [lia|]. split; [rewrite Z.add_mod, Hv2 by lia; done|]. exists (t + 2). split_and!; [lia|lia|].
        rewrite Hnt, Hm100, Z.pow_add_r by lia. ring.
      * assert (Hlog : Z.log2 q < Z.log2 m).
        { apply Z.lt_le_trans with (Z.log2 (2 * q)); [rewrite Z.log2_double by lia; lia|].
          apply Z.log2_le_mono. lia. }
        pose proof (Z.log2_nonneg q). lia.
Qed.

Lemma remove_trailing_zeros32_ok n s : 0 < n < 2 ^ 32 -> 0 <= s -> s mod 2 = 0 ->
  exists n' t, remove_trailing_zeros32 n s = Ok (n', s + t) /\ 0 <= t /\ n = n' * 10 ^ t /\ ~ (10 | n').
Proof.
  intros Hn Hs Hs2. unfold remove_trailing_zeros32. rewrite asserted_true.
  - apply strip_ok; try done. by left.
  - apply negb_true_iff, Z.eqb_neq. lia.
Qed.

Lemma remove_trailing_zeros64_ok n : 0 < n < 2 ^ 32 * 10 ^ 8 ->
  exists n' t, remove_trailing_zeros64 n = Ok (n', t) /\ 0 <= t /\ n = n' * 10 ^ t /\ ~ (10 | n').
Proof.
  intros Hn. unfold remove_trailing_zeros64. rewrite asserted_true by (apply negb_true_iff, Z.eqb_neq; lia).
  cbn [umul128 fst snd]. set (M := 12379400392853802749).
  change (90 - 64) with 26. rewrite land_mask by lia. rewrite !Z.shiftr_div_pow2 by lia. rewrite (wrap_mod 64) by lia.
  pose proof (Z.div_mod n (10 ^ 8) ltac:(lia)) as Hdm. pose proof (Z.mod_pos_bound n (10 ^ 8) ltac:(lia)) as Hmb.
  set (a := n / 10 ^ 8) in *. set (b := n mod 10 ^ 8) in *.
  assert (Ha : 0 <= a < 2 ^ 32) by lia.
  set (err := 875776). assert (HM : M * 10 ^ 8 = 2 ^ 90 + err) by done.
  assert (Hnm : n * M = a * 2 ^ 90 + (a * err + b * M)).
  { rewrite Hdm. replace ((10 ^ 8 * a + b) * M) with (a * (M * 10 ^ 8) + b * M) by ring. rewrite HM. ring. }
  assert (Hlow : 0 <= a * err + b * M < 2 ^ 90) by (subst err M; lia).
  assert (Hq : n * M / 2 ^ 64 / 2 ^ 26 = a).
  { rewrite pow2_div_div by lia. symmetry. eapply Z.div_unique_pos; [exact Hlow|]. change (64 + 26) with 90. lia. }
  assert (Hr : n * M mod 2 ^ 90 = a * err + b * M).
  { symmetry. apply (Z.mod_unique_pos _ _ a); [exact Hlow|]. lia. }
  rewrite Hq.
  assert (Htest : ((n * M / 2 ^ 64) mod 2 ^ 26 =? 0) && ((n * M) mod 2 ^ 64 <? M) = (b =? 0)).
  { assert (Hs : n * M mod 2 ^ 90 = ((n * M / 2 ^ 64) mod 2 ^ 26) * 2 ^ 64 + (n * M) mod 2 ^ 64).
    { change (2 ^ 90) with (2 ^ 64 * 2 ^ 26). rewrite Z.rem_mul_r by lia. ring. }
    rewrite Hr in Hs. pose proof (Z.mod_pos_bound (n * M / 2 ^ 64) (2 ^ 26) ltac:(lia)).
    pose proof (Z.mod_pos_bound (n * M) (2 ^ 64) ltac:(lia)).
    set (u := (n * M / 2 ^ 64) mod 2 ^ 26) in *. set (v := (n * M) mod 2 ^ 64) in *. clearbody u v.
    apply eq_true_iff_eq. rewrite andb_true_iff, !Z.eqb_eq, Z.ltb_lt. subst err M. lia. }
  rewrite Htest. destruct (Z.eqb_spec b 0) as [Hb|Hb].
  - rewrite wrap_id by lia.
    destruct (remove_trailing_zeros32_ok a 8) as (n' & t & -> & Ht & Hat & H10); [lia|lia|done|].
    exists n', (8 + t). split_and!; [done|lia| |done]. rewrite Hdm, Hat, Hb, Z.pow_add_r by lia. ring.
  - destruct (strip_ok 64 0xcccccccccccccccd 0x8f5c28f5c28f5c29 n 0) as (n' & t & -> & Ht & Hat & H10);
      [by right|done|done|lia|lia|done|]. exists n', t. by rewrite Z.add_0_l.
Qed.

(** What the rest of the proof needs to know of cache_accessor<T>: [cval] is the number a cache entry stands for. *)
Record accessor_ok (I : float_info) {E} (A : cache_accessor E) (cval : E -> Z) (cok : E -> Prop)
    (nmax : Z) : Prop := {
  mul_ok u ca : 0 <= u < 2 ^ carrier_bits I -> cok ca ->
    compute_mul A u ca = (u * cval ca / 2 ^ (2 * carrier_bits I),
                          (u * cval ca / 2 ^ carrier_bits I) mod 2 ^ carrier_bits I =? 0);
  delta_ok ca beta : cok ca -> 1 <= beta <= 15 ->
    compute_delta A ca beta = Ok (cval ca / 2 ^ (2 * carrier_bits I - 1 - beta));
  parity_ok n ca beta : 0 <= n < 2 ^ carrier_bits I -> cok ca -> 1 <= beta <= 15 ->
    compute_mul_parity A n ca beta =
      Ok (Z.odd (n * cval ca / 2 ^ (2 * carrier_bits I - beta)),
          (n * cval ca / 2 ^ (carrier_bits I - beta)) mod 2 ^ carrier_bits I =? 0);
  div_ok n : 0 <= n <= nmax -> divide_by_10_to_kappa_plus_1 A n = n / big_divisor I;
  rtz_ok n : 0 < n -> n <= nmax / 100 ->
    exists n' t, remove_trailing_zeros A n = Ok (n', t) /\ 0 <= t /\ n = n' * 10 ^ t /\ ~ (10 | n');
  cval_ok ca : cok ca -> 0 <= cval ca < 2 ^ (2 * carrier_bits I) }.

Lemma accessor_float_ok : accessor_ok float_info_float accessor_float (fun c => c) (fun c => 0 <= c < 2 ^ 64) (2 ^ 32 - 1).
Proof.
  split.
  - intros u c Hu Hc. cbn [carrier_bits float_info_float compute_mul accessor_float]. change (2 * 32) with 64.
    unfold umul96_upper64, umul128_upper64, umul128. cbn [fst].
    rewrite Z.shiftl_mul_pow2 by lia. rewrite (wrap_id 64) by (cbn in Hu; lia).
    rewrite !Z.shiftr_div_pow2 by lia.
    assert (He : u * 2 ^ 32 * c / 2 ^ 64 = u * c / 2 ^ 32).
    { replace (u * 2 ^ 32 * c) with (u * c * 2 ^ 32) by ring. rewrite pow2_mul_div by lia. done. }
    rewrite He, pow2_div_div by lia. change (32 + 32) with 64. rewrite (wrap_mod 32 (u * c / 2 ^ 32)) by lia. f_equal.
    apply wrap_id. cbn in Hu. split; [apply Z.div_pos; nia|]. apply Z.div_lt_upper_bound; nia.
  - intros c beta Hc Hb. cbn [carrier_bits float_info_float compute_delta accessor_float].
    rewrite shr_ok by lia. cbn [mbind]. change (2 * 32) with 64. cbn. f_equal. apply wrap_id.
    assert (0 < 2 ^ (64 - 1 - beta)) by (apply pow2_pos; lia).
    split; [apply Z.div_pos; lia|]. apply Z.div_lt_upper_bound; [lia|].
    rewrite <- Z.pow_add_r by lia.
    apply Z.lt_le_trans with (2 ^ 64); [lia|]. apply Z.pow_le_mono_r; lia.
  - intros n c beta Hn Hc Hb. cbn [carrier_bits float_info_float compute_mul_parity accessor_float].
    rewrite asserted_true by (apply andb_true_intro; split; [apply Z.leb_le|apply Z.ltb_lt]; lia).
    unfold umul96_lower64. rewrite !shr_ok by lia. cbn -[Z.mul Z.sub Z.pow]. rewrite odd_land.
    change (2 * 32) with 64. rewrite !wrap_mod by lia. f_equal. f_equal.
    + rewrite pow2_div by lia. replace (64 - (64 - beta)) with beta by lia. apply odd_mod_pow2. lia.
    + rewrite pow2_div by lia. rewrite pow2_mod by lia. done.
  - intros n Hn. cbn -[Z.pow Z.div Z.mul]. rewrite (wrap_id 64) by lia. rewrite Z.shiftr_div_pow2 by lia.
    rewrite (magic_div n 1374389535 100 37) by lia. apply wrap_id. split; [apply Z.div_pos; lia|].
    apply Z.div_lt_upper_bound; lia.
  - intros n Hn Hm. cbn -[Z.pow Z.div].
    destruct (remove_trailing_zeros32_ok n 0) as (n' & t & -> & H); [|lia|done|eauto].
    assert ((2 ^ 32 - 1) / 100 <= 2 ^ 32 - 1) by (apply Z.div_le_upper_bound; lia). lia.
  - done.
Qed.

Definition u128_val (x : u128) : Z := fst x * 2 ^ 64 + snd x.
Definition u128_ok (x : u128) : Prop := 0 <= fst x < 2 ^ 64 /\ 0 <= snd x < 2 ^ 64.
Definition u128_of (n : Z) : u128 := (n / 2 ^ 64, n mod 2 ^ 64).

Lemma umul128_of x y : umul128 x y = u128_of (x * y).
Proof. unfold umul128, u128_of. by rewrite Z.shiftr_div_pow2, wrap_mod by lia. Qed.

Lemma u128_add64_ok x n : 0 <= x -> 0 <= n < 2 ^ 64 -> x + n < 2 ^ 128 -> u128_add64 (u128_of x) n = u128_of (x + n).
Proof.
  intros Hx Hn Hs. unfold u128_add64, u128_of. rewrite !wrap_mod by lia. cbn [fst snd].
  assert (Hlo : (x mod 2 ^ 64 + n) mod 2 ^ 64 = (x + n) mod 2 ^ 64) by (by rewrite Z.add_mod_idemp_l by lia).
  rewrite Hlo. f_equal.
  pose proof (Z.div_mod x (2 ^ 64) ltac:(lia)). pose proof (Z.mod_pos_bound x (2 ^ 64) ltac:(lia)).
  pose proof (Z.div_mod (x + n) (2 ^ 64) ltac:(lia)). pose proof (Z.mod_pos_bound (x + n) (2 ^ 64) ltac:(lia)).
  set (q := x / 2 ^ 64) in *. set (q' := (x + n) / 2 ^ 64) in *.
  set (r := x mod 2 ^ 64) in *. set (r' := (x + n) mod 2 ^ 64) in *. clearbody q q' r r'.
  destruct (Z.ltb_spec r' n); rewrite Z.mod_small; lia.
Qed.

Lemma umul192_upper128_ok x y : 0 <= x < 2 ^ 64 -> u128_ok y ->
  umul192_upper128 x y = u128_of (x * u128_val y / 2 ^ 64).
Proof.
  intros Hx [Hh Hl]. unfold umul192_upper128, umul128_upper64. rewrite !umul128_of. cbn [u128_of fst].
  fold (u128_of (x * fst y)).
  replace (x * u128_val y) with (x * fst y * 2 ^ 64 + x * snd y) by (unfold u128_val; ring).
  rewrite Z.div_add_l by lia.
  assert (H0 : 0 <= x * snd y / 2 ^ 64 < 2 ^ 64).
  { split; [apply Z.div_pos; nia|]. apply Z.div_lt_upper_bound; nia. }
  apply u128_add64_ok; [nia|done|]. nia.
Qed.

Lemma umul192_lower128_ok x y : 0 <= x < 2 ^ 64 -> u128_ok y ->
  umul192_lower128 x y = u128_of ((x * u128_val y) mod 2 ^ 128).
Proof.
  intros Hx [Hh Hl]. unfold umul192_lower128. rewrite !umul128_of. unfold u128_of. cbn [fst snd]. f_equal.
  - rewrite pow2_div by lia. change (128 - 64) with 64.
    replace (x * u128_val y) with (x * fst y * 2 ^ 64 + x * snd y) by (unfold u128_val; ring).
    rewrite Z.div_add_l by lia. rewrite !wrap_mod by lia. by rewrite Z.add_mod_idemp_l by lia.
  - rewrite pow2_mod by lia.
    replace (x * u128_val y) with (x * snd y + x * fst y * 2 ^ 64) by (unfold u128_val; ring).
    by rewrite Z.mod_add by lia.
Qed.

Lemma accessor_double_ok :
  accessor_ok float_info_double accessor_double u128_val u128_ok (2 ^ 63 + 2 ^ 62).
Proof.
  assert (Hval : forall ca, u128_ok ca -> 0 <= u128_val ca < 2 ^ 128).
  { intros [h l] [H1 H2]. unfold u128_val. cbn [fst snd] in *. lia. }
  split.
  - intros u ca Hu Hc. cbn [carrier_bits float_info_double compute_mul accessor_double]. change (2 * 64) with 128.
    rewrite umul192_upper128_ok by done. cbn [u128_of fst snd]. by rewrite pow2_div_div by lia.
  - intros ca beta Hc Hb. pose proof (Hval ca Hc) as Hv. destruct Hc as [Hh Hl].
    cbn [carrier_bits float_info_double compute_delta accessor_double]. change (2 * 64) with 128.
    rewrite shr_ok by lia. cbn -[Z.pow Z.div Z.sub]. f_equal.
    assert (He : u128_val ca / 2 ^ (128 - 1 - beta) = fst ca / 2 ^ (64 - 1 - beta)).
    { replace (128 - 1 - beta) with (64 + (64 - 1 - beta)) by lia. rewrite <- pow2_div_div by lia.
      unfold u128_val. rewrite Z.div_add_l, (Z.div_small (snd ca)) by lia. by rewrite Z.add_0_r. }
    rewrite He. apply wrap_id. assert (0 < 2 ^ (64 - 1 - beta)) by (apply pow2_pos; lia).
    split; [apply Z.div_pos; lia|]. apply Z.div_lt_upper_bound; [lia|].
    rewrite <- Z.pow_add_r by lia.
    apply Z.lt_le_trans with (2 ^ 64); [lia|]. apply Z.pow_le_mono_r; lia.
  - intros n ca beta Hn Hc Hb.
    cbn [carrier_bits float_info_double compute_mul_parity accessor_double]. change (2 * 64) with 128.
    rewrite asserted_true by (apply andb_true_intro; split; [apply Z.leb_le|apply Z.ltb_lt]; lia).
    rewrite umul192_lower128_ok by done. cbn [u128_of fst snd].
    set (P := n * u128_val ca). rewrite !shr_ok, !shl_ok by lia. cbn -[Z.mul Z.sub Z.pow Z.div Z.modulo]. rewrite odd_land.
    f_equal. f_equal.
    + rewrite pow2_div_div by lia. replace (64 + (64 - beta)) with (128 - beta) by lia.
      rewrite pow2_div by lia. replace (128 - (128 - beta)) with beta by lia. apply odd_mod_pow2. lia.
    + rewrite (pow2_mod P 64 128) by lia. rewrite (pow2_div P 64 128) by lia. change (128 - 64) with 64.
      rewrite pow2_div by lia. replace (64 - (64 - beta)) with beta by lia.
      assert (HB : 0 < 2 ^ beta) by (apply pow2_pos; lia).
      assert (HC : 0 < 2 ^ (64 - beta)) by (apply pow2_pos; lia).
      assert (HBC : 2 ^ 64 = 2 ^ (64 - beta) * 2 ^ beta) by (rewrite <- Z.pow_add_r by lia; f_equal; lia).
      (* Q = P >> (64 - beta): its low beta bits and the 64 - beta bits above *)
      assert (Hhi : wrap 64 ((P / 2 ^ 64) mod 2 ^ 64 * 2 ^ beta)
                    = (P / 2 ^ (64 - beta) / 2 ^ beta) mod 2 ^ (64 - beta) * 2 ^ beta).
      { rewrite pow2_div_div by lia. replace (64 - beta + beta) with 64 by lia. rewrite wrap_mod by lia.
        rewrite Z.mul_mod_idemp_l by lia. rewrite HBC at 2. apply Z.mul_mod_distr_r; lia. }
      rewrite Hhi. set (Q := P / 2 ^ (64 - beta)).
      assert (HQ : Q mod 2 ^ 64 = (Q / 2 ^ beta) mod 2 ^ (64 - beta) * 2 ^ beta + Q mod 2 ^ beta).
      { rewrite HBC, (Z.mul_comm (2 ^ (64 - beta))), Z.rem_mul_r by lia. lia. }
      rewrite Z.lor_comm, lor_split by (try apply Z.mod_pos_bound; lia). by rewrite <- HQ.
  - intros n Hn. cbn [divide_by_10_to_kappa_plus_1 accessor_double big_divisor float_info_double].
    unfold umul128_upper64. rewrite umul128_of. cbn [u128_of fst].
    rewrite Z.shiftr_div_pow2, pow2_div_div by lia. change (64 + 7) with 71. apply magic_div; lia.
  - intros n Hn Hm. apply remove_trailing_zeros64_ok. 
    assert (Hle : (2 ^ 63 + 2 ^ 62) / 100 < 2 ^ 32 * 10 ^ 8) by (apply Z.div_lt_upper_bound; lia). lia.
  - done.
Qed.
