(** Long digit generation rounds correctly. *)
From Coq Require Import QArith Znumtheory Zpow_facts.
From Verif Require Import Base.Cpp Model.FmtInt Model.Dragonbox Model.Bigint Spec.FloatSpec Proofs.FmtIntProofs Proofs.DragonboxArith
  Proofs.FloatSpecProofs Proofs.SegmentProofs Proofs.FirstSegment Proofs.BigintProofs Proofs.BigintDivision.
Set Default Proof Using "Type".
Local Open Scope Z_scope.
Local Notation BB := (2 ^ 32).

Lemma mod_low a k : 0 <= k < 32 -> Z.odd a = true -> (a * 2 ^ k) mod BB <> 0.
Proof.
  intros Hk Ho H. apply Z.div_exact in H; [|lia]. set (q := a * 2 ^ k / BB) in H.
  replace BB with (2 ^ (32 - k - 1) * 2 * 2 ^ k) in H.
  2: { rewrite <- Z.mul_assoc, (Z.mul_comm 2), Z.mul_assoc, <- Z.pow_add_r, Z.mul_comm, <- Z.pow_succ_r by lia. f_equal. lia. }
  replace (2 ^ (32 - k - 1) * 2 * 2 ^ k * q) with (2 * (2 ^ (32 - k - 1) * q) * 2 ^ k) in H by ring.
  apply Z.mul_reg_r in H; [|apply Z.pow_nonzero; lia]. rewrite H, Z.odd_mul in Ho. done.
Qed.
Lemma odd_pow5 x : 0 <= x -> Z.odd (5 ^ x) = true.
Proof.
  intros Hx. rewrite <- (Z2Nat.id x) by done. induction (Z.to_nat x) as [|n IH]; [done|].
  rewrite Nat2Z.inj_succ, Z.pow_succ_r, Z.odd_mul, IH by lia. done.
Qed.
Lemma power_of_ten f e x : 0 < f < 2 ^ 53 -> 0 <= e -> 0 <= x -> f * 2 ^ e = 10 ^ x -> x <= 22.
Proof.
  intros Hf He Hx Heq. destruct (Z.le_gt_cases x 22) as [|Hgt]; [done|]. exfalso.
  assert (Hd : (5 ^ x | 2 ^ e * f)).
  { exists (2 ^ x). rewrite Z.mul_comm, Heq, <- Z.pow_mul_l. done. }
  apply Gauss in Hd; [|apply rel_prime_Zpower; try lia; by apply Zgcd_1_rel_prime].
  apply Z.divide_pos_le in Hd; [|lia].
  assert (5 ^ 23 <= 5 ^ x) by (apply Z.pow_le_mono_r; lia). change (5 ^ 23) with 11920928955078125 in *. lia.
Qed.

Lemma ratio_range v x D N : 0 < D -> (p10 x <= v)%Q -> (v < p10 (x + 1))%Q ->
  (v * p10 (- x) * inject_Z D == inject_Z N)%Q -> D <= N < 10 * D.
Proof.
  intros HD H1 H2 Hv. assert (HDq : (0 < inject_Z D)%Q) by (change 0%Q with (inject_Z 0); by rewrite <- Zlt_Qlt).
  pose proof (p10_pos (- x)) as Hp.
  assert (H0 : (p10 x * p10 (- x) == 1)%Q) by (rewrite <- p10_add, Z.add_opp_diag_r; reflexivity).
  assert (H3 : (p10 (x + 1) * p10 (- x) == inject_Z 10)%Q).
  { rewrite <- p10_add. replace (x + 1 + - x) with 1 by lia. reflexivity. }
  split.
  - rewrite Zle_Qle, <- Hv. apply (Qle_trans _ (1 * inject_Z D)); [rewrite Qmult_1_l; apply Qle_refl|].
    apply Qmult_le_r; [done|]. rewrite <- H0. by apply Qmult_le_r.
  - rewrite Zlt_Qlt, <- Hv, inject_Z_mult. apply Qmult_lt_r; [done|]. apply (Qlt_le_trans _ (p10 (x + 1) * p10 (- x))); [by apply Qmult_lt_r|rewrite H3; apply Qle_refl].
Qed.

Lemma dragon_start_ok f e x closer : 0 < f < 2 ^ 53 -> -2000 <= e <= 2000 -> -1000 <= x <= 1000 ->
  let v := (inject_Z f * p2 e)%Q in
  (p10 x <= v)%Q -> (v < p10 (x + 1))%Q ->
  wp (dragon_start f e x closer) (fun '(n, d) => pos n /\ pos d /\ val d <= val n < 10 * val d /\
    (v * p10 (- x) * inject_Z (val d) == inject_Z (val n))%Q /\
    (bexp n <= bexp d \/ val n <> val d \/ bval (bigits d) mod BB <> 0)).
Proof.
  intros Hf He Hx v Hlo Hhi. unfold dragon_start. set (sh := if closer then 2 else 1).
  assert (Hsh : sh = 1 \/ sh = 2) by (unfold sh; destruct closer; lia).
  assert (Hshd : sh / 32 = 0) by (destruct Hsh as [-> | ->]; done).
  assert (Hshm : sh mod 32 = sh) by (destruct Hsh as [-> | ->]; done).
  assert (Hexp0 : (p10 x * p10 (- x) == 1)%Q) by (rewrite <- p10_add, Z.add_opp_diag_r; reflexivity).
  (* what is left to show of the two numbers *)
  assert (Hfin : forall n d, pos n -> pos d -> (v * p10 (- x) * inject_Z (val d) == inject_Z (val n))%Q ->
    (bexp n <= bexp d \/ val n <> val d \/ bval (bigits d) mod BB <> 0) ->
    pos n /\ pos d /\ val d <= val n < 10 * val d /\ (v * p10 (- x) * inject_Z (val d) == inject_Z (val n))%Q /\
    (bexp n <= bexp d \/ val n <> val d \/ bval (bigits d) mod BB <> 0)).
  { intros n d Hn Hd Hv Hor. split_and!; try done.
    all: destruct (ratio_range v x (val d) (val n) (val_pos d Hd) Hlo Hhi Hv); done. }
  destruct (decide (0 <= e)) as [He0|He0].
  - assert (Hx0 : 0 <= x).
    { destruct (Z.le_gt_cases 0 x) as [|Hneg]; [done|]. exfalso.
      assert (Hw : (v * p10 (- (x + 1)) == inject_Z (f * 2 ^ e * 10 ^ (- (x + 1))))%Q).
      { unfold v. rewrite !inject_Z_mult, p2_Z, (p10_Z (- (x + 1))) by lia. reflexivity. }
      assert (H1 : (v * p10 (- (x + 1)) < inject_Z 1)%Q).
      { assert (H2 : (inject_Z 1 == p10 (x + 1) * p10 (- (x + 1)))%Q) by (rewrite <- p10_add, Z.add_opp_diag_r; reflexivity).
        rewrite H2. apply Qmult_lt_r; [apply p10_pos|done]. }
      rewrite Hw, <- Zlt_Qlt in H1. pose proof (pow2_pos e He0). pose proof (Z.pow_pos_nonneg 10 (- (x + 1)) ltac:(lia) ltac:(lia)).
      assert (0 < f * 2 ^ e * 10 ^ (- (x + 1))) by (apply Z.mul_pos_pos; [apply Z.mul_pos_pos|]; lia). lia. }
    apply wp_bind. eapply wp_mono; [apply assign_ok; lia|]. intros n0 (N1 & N2 & N3 & N4).
    apply wp_bind. eapply wp_mono; [apply shift_left_ok; try done; lia|]. intros n (M1 & M2 & M3 & M4 & M5 & M6).
    apply wp_bind. eapply wp_mono; [apply assign_pow10_ok; lia|]. intros d0 (D1 & D2 & D3 & D4 & D5).
    assert (Hd0 : 0 <= bexp d0) by (rewrite D3; apply Z.div_pos; lia).
    apply wp_bind. eapply wp_mono; [apply shift_left_ok; try done; lia|]. intros d (E1 & E2 & E3 & E4 & E5 & E6).
    apply wp_ok.
    assert (Hvn : val n = f * 2 ^ e * 2 ^ sh).
    { rewrite M4. unfold val. rewrite N1, N4, Z.pow_add_r by lia. change (2 ^ (32 * 0)) with 1. ring. }
    assert (Hvd : val d = 10 ^ x * 2 ^ sh) by (rewrite E4, D5; done).
    apply Hfin.
    + split_and!; [done|lia|by apply M3].
    + split_and!; [done|lia|by apply E3].
    + rewrite Hvn, Hvd, !inject_Z_mult, <- (p10_Z x) by lia. unfold v. rewrite (p2_Z e) by lia.
      rewrite <- (Qmult_1_l (inject_Z f * inject_Z (2 ^ e) * inject_Z (2 ^ sh))), <- Hexp0. ring.
    + destruct (decide (val n = val d)) as [Heq|Hne]; [|right; by left]. right. right.
      rewrite Hvn, Hvd in Heq. apply Z.mul_reg_r in Heq; [|apply Z.pow_nonzero; lia].
      pose proof (power_of_ten f e x Hf He0 Hx0 Heq) as Hx22.
      rewrite E6, D4, Hshm, (Z.mod_small x) by lia. rewrite <- Z.mul_assoc, <- Z.pow_add_r by lia.
      apply mod_low; [lia|]. by apply odd_pow5.
  - destruct (decide (x < 0)) as [Hxn|Hxn].
    + apply wp_bind. eapply wp_mono; [apply assign_pow10_ok; lia|]. intros n0 (N1 & N2 & N3 & N4 & N5).
      assert (Hn0 : 0 <= bexp n0) by (rewrite N3; apply Z.div_pos; lia).
      apply wp_bind. eapply wp_mono; [apply times_u128_ok; try done; lia|]. intros n1 (L1 & L2 & L3 & L4).
      apply wp_bind. eapply wp_mono; [apply shift_left_ok; try done; lia|]. intros n (M1 & M2 & M3 & M4 & M5 & M6).
      apply wp_bind. eapply wp_mono; [apply assign_ok; lia|]. intros d0 (D1 & D2 & D3 & D4).
      apply wp_bind. eapply wp_mono; [apply shift_left_ok; try done; lia|]. intros d (E1 & E2 & E3 & E4 & E5 & E6).
      apply wp_ok.
      assert (Hvn : val n = 10 ^ (- x) * f * 2 ^ sh).
      { rewrite M4, <- N5. unfold val. rewrite L1, L3. ring. }
      assert (Hvd : val d = 2 ^ (- e) * 2 ^ sh).
      { rewrite E4. unfold val. rewrite D1, D4, <- Z.pow_add_r by lia. change (2 ^ (32 * 0)) with 1. rewrite !Z.mul_1_l. f_equal. lia. }
      apply Hfin.
      * split_and!; [done|lia|by apply M3].
      * split_and!; [done|lia|by apply E3].
      * rewrite Hvn, Hvd, !inject_Z_mult, <- (p10_Z (- x)), <- (p2_Z (- e)) by lia. unfold v.
        assert (H2 : (p2 e * p2 (- e) == 1)%Q) by (rewrite <- p2_add, Z.add_opp_diag_r; reflexivity).
        rewrite <- (Qmult_1_l (p10 (- x) * inject_Z f * inject_Z (2 ^ sh))), <- H2. ring.
      * right. right. rewrite E6, D4. apply mod_low; [apply Z.mod_pos_bound; lia|done].
    + apply wp_bind. eapply wp_mono; [apply assign_ok; lia|]. intros n0 (N1 & N2 & N3 & N4).
      apply wp_bind. eapply wp_mono; [apply shift_left_ok; try done; lia|]. intros n (M1 & M2 & M3 & M4 & M5 & M6).
      apply wp_bind. eapply wp_mono; [apply assign_pow10_ok; lia|]. intros d0 (D1 & D2 & D3 & D4 & D5).
      assert (Hd0 : 0 <= bexp d0) by (rewrite D3; apply Z.div_pos; lia).
      apply wp_bind. eapply wp_mono; [apply shift_left_ok; try done; lia|]. intros d (E1 & E2 & E3 & E4 & E5 & E6).
      apply wp_ok.
      assert (Hvn : val n = f * 2 ^ sh).
      { rewrite M4. unfold val. rewrite N1, N4. change (2 ^ (32 * 0)) with 1. ring. }
      assert (Hvd : val d = 10 ^ x * (2 ^ (- e) * 2 ^ sh)).
      { rewrite E4, D5, <- Z.pow_add_r by lia. do 2 f_equal. lia. }
      apply Hfin.
      * split_and!; [done|lia|by apply M3].
      * split_and!; [done|lia|by apply E3].
      * rewrite Hvn, Hvd, !inject_Z_mult, <- (p10_Z x), <- (p2_Z (- e)) by lia. unfold v.
        assert (H2 : (p2 e * p2 (- e) == 1)%Q) by (rewrite <- p2_add, Z.add_opp_diag_r; reflexivity).
        rewrite <- (Qmult_1_l (inject_Z f * inject_Z (2 ^ sh))), <- H2.
        rewrite <- (Qmult_1_l (p2 e * p2 (- e) * (inject_Z f * inject_Z (2 ^ sh)))), <- Hexp0. ring.
      * left. rewrite M5, N1, Hshd. lia.
Qed.

Lemma left_times10 y x : left_of y x -> left_of y (multiply32 x 10) /\ val (multiply32 x 10) = val x * 10 /\
  bexp (multiply32 x 10) = bexp x.
Proof.
  intros (H1 & H2 & H3). destruct (multiply32_ok x 10 ltac:(lia) H1) as (M1 & M2 & M3 & M4 & _ & M5).
  split_and!; [| |done].
  - split_and!; [done|lia|]. destruct H3 as [H3|[H3 H4]]; [left; by apply M4|right]. split; [by apply M5|lia].
  - unfold val. rewrite M1, M3. ring.
Qed.

Lemma first_char n x : 0 <= x < 10 ^ Z.of_nat (S n) -> exists c r, chars (S n) x = c :: r /\ 48 <= c <= 57.
Proof.
  intros Hx. destruct (chars (S n) x) as [|c r] eqn:E.
  { apply (f_equal length) in E. by rewrite chars_length in E. }
  exists c, r. split; [done|]. unfold chars in E. pose proof (decs_digits (S n) x) as Hd.
  destruct (decs (S n) x) as [|d ds]; [done|]. cbn in E. injection E as <- _. apply Forall_cons in Hd as [Hd _]. lia.
Qed.

Lemma format_dragon_ok f e x closer fixed k : 0 < f < 2 ^ 53 -> -2000 <= e <= 2000 -> -1000 <= x <= 1000 -> 1 <= k ->
  let v := (inject_Z f * p2 e)%Q in
  (p10 x <= v)%Q -> (v < p10 (x + 1))%Q ->
  exists N D, 0 < D /\ D <= N < 10 * D /\ (v * p10 (- x) * inject_Z D == inject_Z N)%Q /\
    format_dragon f e closer fixed k x = Ok (rounded_chars fixed k (rne (N * 10 ^ (k - 1)) D) (x - (k - 1))).
Proof.
  intros Hf He Hx Hk v Hlo Hhi.
  destruct (dragon_start_ok f e x closer Hf He Hx Hlo Hhi) as ([n d] & Hrun & Hpn & Hpd & Hrange & Hv & Hor).
  exists (val n), (val d). pose proof (val_pos d Hpd) as HD. split; [done|]. split; [done|]. split; [exact Hv|].
  unfold format_dragon. destruct (Z.leb_spec 0 k) as [_|]; [|lia]. cbn [asserted]. rewrite Hrun. cbn [bind].
  rewrite decide_False by lia. set (N := val n) in *. set (D := val d) in *.
  set (body := fun (_ : nat) '(buf, numerator) => _).
  assert (Hloop : wp (for_up (Z.to_nat (k - 1)) 0 body ([], n)) (fun '(buf, z) =>
    buf = chars (Z.to_nat (k - 1)) (N * 10 ^ (k - 1) / (10 * D)) /\ left_of d z /\ val z = (N * 10 ^ (k - 1)) mod (10 * D) /\
    (bexp z <= bexp d \/ val z <> D \/ bval (bigits d) mod BB <> 0))).
  { apply (wp_for_up (fun j '(buf, z) => buf = chars j (N * 10 ^ Z.of_nat j / (10 * D)) /\ left_of d z /\
      val z = (N * 10 ^ Z.of_nat j) mod (10 * D) /\ ((j = 0%nat /\ z = n) \/ bexp z <= bexp d))).
    - change (10 ^ Z.of_nat 0) with 1. rewrite Z.mul_1_r, Z.mod_small by lia. split_and!; [done|by apply pos_left|done|by left].
    - intros j [buf z] _ Hj (-> & Hz & Hvz & Hb). unfold body. set (A := N * 10 ^ Z.of_nat j) in *.
      assert (HA : 0 <= A) by (apply Z.mul_nonneg_nonneg; [lia|apply Z.pow_nonneg; lia]).
      pose proof (Z.mod_pos_bound A (10 * D) ltac:(lia)) as HmA.
      apply wp_bind. eapply wp_mono; [apply divmod_ok; [done|done|fold D; lia|]|].
      + destruct Hb as [[_ ->]|Hb]; [exact Hor|by left].
      + intros [z' q] (Hz' & Hvz' & Hq & Hbz). fold D in Hvz', Hq. rewrite times_int_ok by lia. apply wp_bind, wp_ok, wp_ok.
        destruct (left_times10 d z' Hz') as (T1 & T2 & T3).
        pose proof (Z.div_mod A (10 * D) ltac:(lia)) as HdA.
        pose proof (Z.div_mod (val z) D ltac:(lia)) as Hdz. pose proof (Z.mod_pos_bound (val z) D ltac:(lia)) as Hmz.
        assert (Hqr : 0 <= q < 10) by (rewrite Hq; split; [apply Z.div_pos; lia|apply Z.div_lt_upper_bound; lia]).
        rewrite <- Hq in Hdz. set (Q := A / (10 * D)) in *. rewrite <- Hvz in HdA.
        assert (HA1 : N * 10 ^ Z.of_nat (S j) = A * 10).
        { unfold A. rewrite Nat2Z.inj_succ, Z.pow_succ_r by lia. ring. }
        rewrite HA1. split_and!.
        * rewrite <- (chars_snoc j Q q) by done. f_equal. apply (Z.div_unique_pos _ _ _ (10 * (val z mod D))); [lia|]. lia.
        * done.
        * rewrite T2, Hvz'. apply (Z.mod_unique_pos _ _ (Q * 10 + q)); lia.
        * right. rewrite T3. destruct Hbz as [Hbz| ->]; [done|]. destruct Hb as [[-> ->]|Hb]; [|done]. exfalso. fold N in Hvz'.
          pose proof (Z.mod_pos_bound N D HD). lia.
    - cbn [Nat.add]. intros [buf z]. rewrite Z2Nat.id by lia. intros (H1 & H2 & H3 & H4). split_and!; try done.
      destruct H4 as [[H4 ->]|H4]; [exact Hor|by left]. }
  destruct Hloop as ([buf z] & -> & -> & Hz & Hvz & Hb). cbn [bind]. clear body.
  set (A := N * 10 ^ (k - 1)) in *.
  assert (Hpk : 0 < 10 ^ (k - 1)) by (apply Z.pow_pos_nonneg; lia).
  assert (HA : 0 <= A) by (apply Z.mul_nonneg_nonneg; lia).
  pose proof (Z.mod_pos_bound A (10 * D) ltac:(lia)) as HmA.
  destruct (divmod_ok z d Hz Hpd ltac:(fold D; lia) Hb) as ([z' q] & -> & Hz' & Hvz' & Hq & _). cbn [bind]. fold D in Hvz', Hq.
  destruct (add_compare_ok z' d Hz' Hpd) as (c & -> & Hc1 & Hc2). cbn [bind]. fold D in Hc1, Hc2.
  pose proof (Z.div_mod A (10 * D) ltac:(lia)) as HdA. rewrite <- Hvz in HdA.
  pose proof (Z.div_mod (val z) D ltac:(lia)) as Hdz. pose proof (Z.mod_pos_bound (val z) D ltac:(lia)) as Hmz.
  assert (Hqr : 0 <= q < 10) by (rewrite Hq; split; [apply Z.div_pos; lia|apply Z.div_lt_upper_bound; lia]).
  rewrite <- Hq in Hdz. rewrite <- Hvz' in Hdz, Hmz. set (Q := A / (10 * D)) in *.
  assert (HM : A / D = Q * 10 + q) by (symmetry; apply (Z.div_unique_pos _ _ _ (val z')); lia).
  assert (Hr : A mod D = val z') by (symmetry; apply (Z.mod_unique_pos _ _ (Q * 10 + q)); lia).
  assert (HQ : 0 <= Q < 10 ^ (k - 1)).
  { split; [apply Z.div_pos; lia|]. apply Z.div_lt_upper_bound; [lia|]. unfold A. apply Z.mul_lt_mono_pos_r; lia. }
  assert (Hodd : Z.odd (Q * 10 + q) = Z.odd q).
  { rewrite Z.odd_add, Z.odd_mul. cbn. by rewrite andb_false_r, xorb_false_l. }
  assert (Hup : rounds_up A D = bool_decide (c > 0 \/ (c = 0 /\ q mod 2 <> 0))).
  { unfold rounds_up. rewrite Hr, HM, Hodd. pose proof (Zmod_odd q) as Hmod.
    destruct (Z.ltb_spec D (2 * val z')) as [H|H]; cbn [orb].
    - symmetry. apply bool_decide_eq_true. left. by apply Hc1.
    - destruct (Z.eqb_spec (2 * val z') D) as [H'|H']; cbn [andb].
      + destruct (Z.odd q); symmetry; [apply bool_decide_eq_true|apply bool_decide_eq_false]; lia.
      + symmetry. apply bool_decide_eq_false. lia. }
  unfold rne. rewrite Hup, HM. unfold rounded_chars.
  assert (Hpk2 : 10 ^ k = 10 * 10 ^ (k - 1)) by (rewrite <- Z.pow_succ_r by lia; f_equal; lia).
  replace (Z.to_nat k) with (S (Z.to_nat (k - 1))) by lia.
  assert (HQn : 0 <= Q < 10 ^ Z.of_nat (Z.to_nat (k - 1))) by (by rewrite Z2Nat.id by lia).
  destruct (decide (c > 0 \/ (c = 0 /\ q mod 2 <> 0))) as [Hr1|Hr1].
  - rewrite bool_decide_eq_true_2 by done. cbn [Z.b2z]. destruct (decide (q = 9)) as [->|Hq9].
    + change 58 with (48 + 10) at 1. rewrite carry_up_ok by (done || lia). rewrite Z2Nat.id by lia.
      replace (k - 1 + 1) with k by lia. replace (Q * 10 + 9 + 1) with (Q * 10 + 10) by lia.
      destruct (decide (Q * 10 + 10 < 10 ^ k)) as [Hlt|Hge].
      * destruct (first_char (Z.to_nat (k - 1)) (Q * 10 + 10)) as (c0 & r0 & Hc0 & Hc0r).
        { rewrite Nat2Z.inj_succ, Z2Nat.id by lia. replace (Z.succ (k - 1)) with k by lia. lia. }
        rewrite Hc0. cbn [bind get lookup list_lookup]. rewrite decide_False by lia. done.
      * cbn [bind get lookup list_lookup]. rewrite decide_True by done. cbn [bind put].
        unfold put. cbn [length]. rewrite decide_True by lia. cbn [bind insert list_insert].
        destruct fixed; [|by replace (k - 1 + 1) with k by lia].
        cbn [app]. by rewrite <- replicate_cons_app.
    + rewrite decide_True by lia. rewrite <- Z.add_assoc, chars_snoc by lia. done.
  - rewrite bool_decide_eq_false_2 by done. cbn [Z.b2z]. rewrite Z.add_0_r, decide_True by lia. rewrite chars_snoc by lia. done.
Qed.
