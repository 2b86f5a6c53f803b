(** The shortest-decimal algorithm gives the shortest decimal, for every positive finite float and double. *)
From Coq Require Import QArith Qpower Qabs Lqa.
From Verif Require Import Base.Cpp Model.Dragonbox Spec.FloatSpec Proofs.FloatSpecProofs Proofs.DragonboxArith
  Proofs.DragonboxCore Proofs.DragonboxRegular Proofs.DragonboxTables Proofs.DragonboxCerts.
Set Default Proof Using "Type".
Local Open Scope Z_scope.

Notation p5 b := (Qpower (inject_Z 5) b).
Lemma p5_Z n : 0 <= n -> (p5 n == inject_Z (5 ^ n))%Q.
Proof. intros H. rewrite Zpower_Qpower by done. reflexivity. Qed.
Lemma p5_add a b : (p5 (a + b) == p5 a * p5 b)%Q.
Proof. apply Qpower_plus. done. Qed.
Lemma p10_split k : (p10 k == p5 k * p2 k)%Q.
Proof. rewrite <- Qmult_power. reflexivity. Qed.
Lemma p2_opp k : (p2 k * p2 (- k) == 1)%Q.
Proof. rewrite <- p2_add, Z.add_opp_diag_r. reflexivity. Qed.
Lemma p5_opp k : (p5 k * p5 (- k) == 1)%Q.
Proof. rewrite <- p5_add, Z.add_opp_diag_r. reflexivity. Qed.

Lemma power_scale W k l :
  (inject_Z (power_num W k l (5 ^ Z.abs k)) * p10 (- k) ==
   inject_Z (power_den W k l (5 ^ Z.abs k)) * p2 (2 * W - 1 - l))%Q.
Proof.
  unfold power_num, power_den. set (s := 2 * W - 1 - l + k).
  rewrite !Z.shiftl_mul_pow2, !inject_Z_mult by lia. rewrite <- !p2_Z by lia.
  assert (H2 : (p2 (Z.max s 0) == p2 (Z.max (- s) 0) * p2 s)%Q).
  { rewrite <- p2_add. replace (Z.max (- s) 0 + s) with (Z.max s 0) by lia. reflexivity. }
  rewrite H2. replace (2 * W - 1 - l) with (s + - k) by lia. rewrite p2_add, p10_split.
  assert (H5 : (inject_Z (if 0 <=? k then 5 ^ Z.abs k else 1) * p5 (- k) ==
                inject_Z (if 0 <=? k then 1 else 5 ^ Z.abs k))%Q).
  { destruct (Z.leb_spec 0 k).
    - rewrite Z.abs_eq, <- p5_Z by lia. apply p5_opp.
    - rewrite Z.abs_neq, <- p5_Z by lia. change (inject_Z 1) with 1%Q. ring. }
  setoid_replace (inject_Z (if 0 <=? k then 5 ^ Z.abs k else 1) * (p2 (Z.max (- s) 0) * p2 s) * (p5 (- k) * p2 (- k)))%Q
    with (inject_Z (if 0 <=? k then 5 ^ Z.abs k else 1) * p5 (- k) * p2 (Z.max (- s) 0) * (p2 s * p2 (- k)))%Q by ring.
  rewrite H5. ring.
Qed.

(** The few numbers with a significand below ten. *)
Lemma tiny f xn xd S q0 kap s t c :
  S = 10 /\ q0 = 700 /\ kap = 1 \/ S = 100 /\ q0 = 24703 /\ kap = 2 ->
  1 <= f <= 9 -> 0 < xn -> 0 < xd -> q0 * xd <= 100 * xn < (q0 + 1) * xd ->
  0 < s -> kap <= t -> within f xn xd (s * 10 ^ t) ->
  (forall m, within f xn xd (m * 10 ^ t) -> off f xn xd (s * 10 ^ t) <= off f xn xd (m * 10 ^ t)) ->
  1 <= c <= 9 -> within f xn xd (c * 10 ^ (t - 1)) ->
  S <= fl xn xd 2 < 10 * S ->
  off f xn xd (s * 10 ^ t) <= off f xn xd (c * 10 ^ (t - 1)).
Proof.
  intros Hsel Hf Hxn Hxd Hq Hs Ht Hin Hclose Hc Hcin Hdelta.
  assert (Hsel2 : (2 <= S /\ S mod 2 = 0) /\ S = 10 ^ kap /\ 1 <= kap).
  { destruct Hsel as [(-> & _ & ->)|(-> & _ & ->)]; done. }
  destruct Hsel2 as ((HS2 & HSe) & HSk & Hkap).
  destruct (Z.le_gt_cases (kap + 2) t) as [Hbig|Hsmall].
  - (* both are multiples of ten times the unit *)
    assert (Hp : forall i, 1 <= i -> 10 ^ (kap + i) = 10 ^ (i - 1) * (10 * S)).
    { intros i Hi. replace (kap + i) with ((i - 1) + (1 + kap)) by lia. rewrite !Z.pow_add_r, <- HSk by lia. ring. }
    assert (H1 : s * 10 ^ (t - kap - 1) = big_quot f xn xd S).
    { apply within_only; try done; [lia|]. rewrite <- Z.mul_assoc, <- Hp by lia.
      by replace (kap + (t - kap)) with t by lia. }
    assert (H2 : c * 10 ^ (t - kap - 2) = big_quot f xn xd S).
    { apply within_only; try done; [lia|]. rewrite <- Z.mul_assoc.
      replace (t - kap - 2) with ((t - 1 - kap) - 1) by lia. rewrite <- Hp by lia.
      by replace (kap + (t - 1 - kap)) with (t - 1) by lia. }
    replace (s * 10 ^ t) with (c * 10 ^ (t - 1)); [done|].
    replace t with (kap + (t - kap)) at 2 by lia. replace (t - 1) with (kap + (t - 1 - kap)) at 1 by lia.
    rewrite !Hp by lia. rewrite !Z.mul_assoc. rewrite H1.
    replace (t - 1 - kap - 1) with (t - kap - 2) by lia. by rewrite H2.
  - assert (Hsx : 10 ^ t * xd <= (2 * f + 1) * xn).
    { assert (H : s * 10 ^ t * xd <= (2 * f + 1) * xn) by (destruct Hin as [?|[_ ?]]; lia).
      assert (0 < 10 ^ t * xd) by (apply Z.mul_pos_pos; [apply Z.pow_pos_nonneg; lia|lia]).
      assert (1 * (10 ^ t * xd) <= s * (10 ^ t * xd)) by (apply Z.mul_le_mono_nonneg_r; lia). lia. }
    assert (Hcw : (2 * f - 1) * xn <= c * 10 ^ (t - 1) * xd <= (2 * f + 1) * xn) by (destruct Hcin as [?|[_ ?]]; lia).
    assert (Hc1 : within f xn xd (1 * 10 ^ t) -> off f xn xd (s * 10 ^ t) <= off f xn xd (1 * 10 ^ t)) by apply Hclose.
    assert (Hgoal : ((2 * f - 1) * xn < 1 * 10 ^ t * xd /\ 1 * 10 ^ t * xd < (2 * f + 1) * xn) /\
      Z.abs (1 * 10 ^ t * xd - 2 * f * xn) <= Z.abs (c * 10 ^ (t - 1) * xd - 2 * f * xn)).
    { clear Hin Hclose Hcin Hc1 Hdelta HSe HSk HS2 Hs.
      assert (Hcs : c = 1 \/ c = 2 \/ c = 3 \/ c = 4 \/ c = 5 \/ c = 6 \/ c = 7 \/ c = 8 \/ c = 9) by lia.
      assert (Hfs : f = 1 \/ f = 2 \/ f = 3 \/ f = 4 \/ f = 5 \/ f = 6 \/ f = 7 \/ f = 8 \/ f = 9) by lia.
      assert (Hts : t = kap \/ t = kap + 1) by lia. clear Hc Hf Ht Hsmall Hkap.
      destruct Hsel as [(-> & -> & ->)|(-> & -> & ->)];
      destruct Hts as [-> | ->];
      repeat match goal with |- context [10 ^ ?a] => let v := eval cbv in (10 ^ a) in change (10 ^ a) with v in * end;
      repeat match goal with H : context [10 ^ ?a] |- _ => let v := eval cbv in (10 ^ a) in change (10 ^ a) with v in * end;
      repeat (destruct Hfs as [-> | Hfs]); try subst f;
      repeat (destruct Hcs as [-> | Hcs]); try subst c; try (exfalso; lia); lia. }
    transitivity (off f xn xd (1 * 10 ^ t)); [apply Hc1; left; exact (proj1 Hgoal)|exact (proj2 Hgoal)].
Qed.

Lemma lor_high a m : 0 <= m -> 0 <= a < 2 ^ m -> Z.lor a (2 ^ m) = 2 ^ m + a.
Proof.
  intros Hm Ha. rewrite <- Z.lxor_lor; [rewrite <- Z.add_nocarry_lxor; [lia|]|].
  all: apply Z.bits_inj'; intros i Hi; rewrite Z.land_spec, Z.bits_0, Z.pow2_bits_eqb by done.
  all: destruct (Z.eqb_spec m i) as [<-|]; [|by rewrite andb_false_r].
  all: rewrite andb_true_r, Z.testbit_eqb by done; rewrite Z.div_small by done; done.
Qed.
Lemma land_low a m : 0 <= m -> Z.land a (2 ^ m - 1) = a mod 2 ^ m.
Proof. intros Hm. rewrite <- Z.land_ones by done. f_equal. rewrite Z.ones_equiv. lia. Qed.

Section final.
  Context (I : float_info) {E : Type} (A : cache_accessor E) (cval : E -> Z) (cok : E -> Prop) (nmax : Z).
  Context (HA : accessor_ok I A cval cok nmax) (F : format).
  Let W := carrier_bits I.
  Let S := small_divisor I.
  Context (q0 : Z) (HW : 32 <= W) (Hnmax : nmax < 2 ^ W) (Hbig : big_divisor I = 10 * S).
  Context (Hsel : S = 10 /\ q0 = 700 /\ kappa I = 1 \/ S = 100 /\ q0 = 24703 /\ kappa I = 2).
  Context (Hprec : prec F = num_significand_bits I + 1) (Hp : 8 <= prec F).
  Context (Hemin : emin F = min_exponent I - num_significand_bits I - 1).
  Context (Hgood : forall e, emin F <= e <= emax F -> good I A cval cok (emin F) nmax e).
  Context (Hshort : forall e, emin F <= e <= emax F -> good_short I A (emin F) e).
  (** At the least exponent a unit is [q0 / 100] units of the decimal scale. *)
  Context (Hq0 : exists lg l ca, floor_log10_pow2 (emin F) = Ok lg /\ get_cached_power A (- (lg - kappa I)) = Ok ca /\
    floor_log2_pow10 (- (lg - kappa I)) = Ok l /\ 100 * cval ca / 2 ^ (2 * W - (emin F + l)) = q0).

  Local Notation half := (2 ^ (prec F - 1)).

  Lemma scale_ok e k l : 0 <= 2 * W + 1 - (e + l) ->
    (inject_Z (power_num W k l (5 ^ Z.abs k)) * p10 (- k) ==
     inject_Z (power_den W k l (5 ^ Z.abs k) * 2 ^ (2 * W + 1 - (e + l))) * p2 (e - 2))%Q.
  Proof.
    intros H. rewrite power_scale, inject_Z_mult, <- p2_Z by done.
    rewrite <- Qmult_assoc, <- p2_add.
    replace (2 * W + 1 - (e + l) + (e - 2)) with (2 * W - 1 - l) by lia. reflexivity.
  Qed.

  Lemma regular_shortest (x : number F) : valid x -> 0 < significand x ->
    (exponent x = emin F \/ half < significand x) ->
    exists s j, regular_case I A (significand x) (exponent x) = Ok (s, j) /\ shortest x s j.
  Proof using HA HW Hnmax Hbig Hsel Hprec Hp Hemin Hgood Hq0.
    clear Hshort. intros Hv Hpos Hreg. destruct Hv as (Hf & He & Hn) eqn:Heqv. clear Heqv.
    set (f := significand x) in *. set (e := exponent x) in *.
    destruct (Hgood e He) as (lg & l & ca & Hlg & Hca & Hl & Hbeta & Hcok & HN & Hdelta & Hzi & Hfl & Hint).
    rewrite <- Hprec in HN, Hzi. setoid_rewrite <- Hprec in Hfl. setoid_rewrite <- Hprec in Hint.
    fold W in HN, Hdelta, Hzi, Hfl, Hint. fold S in Hdelta, Hint.
    set (k := - (lg - kappa I)) in *. set (xn := power_num W k l (5 ^ Z.abs k)) in *.
    set (Ed := power_den W k l (5 ^ Z.abs k)) in *. set (B := 2 ^ (2 * W - (e + l))) in *.
    set (xd := Ed * B) in *.
    assert (HB : 0 < B) by (apply Z.pow_pos_nonneg; lia).
    assert (Hxn : 0 < xn) by apply power_num_pos. assert (HEd : 0 < Ed) by apply power_den_pos.
    assert (Hxd : 0 < xd) by (apply Z.mul_pos_pos; done).
    assert (H2h : 2 ^ (prec F + 1) = 4 * half /\ 2 ^ prec F = 2 * half).
    { split; [replace (prec F + 1) with (2 + (prec F - 1)) by lia|replace (prec F) with (1 + (prec F - 1)) at 1 by lia];
        rewrite Z.pow_add_r by lia; lia. }
    destruct H2h as [H4h H2h]. rewrite H4h in HN, Hzi. setoid_rewrite H4h in Hfl. setoid_rewrite H4h in Hint. setoid_rewrite H2h in Hint.
    rewrite H2h in Hf.
    assert (Hh : 128 <= half) by (change 128 with (2 ^ 7); apply Z.pow_le_mono_r; lia).
    assert (Hmin : forall i, -1 <= i -> e = emin F \/ 2 * half <= 2 * f + i) by (intros; lia).
    assert (Hflmono : forall a b, a <= b -> fl xn xd a <= fl xn xd b).
    { intros a b Hab. unfold fl. apply Z.div_le_mono; [done|]. apply Z.mul_le_mono_nonneg_r; lia. }
    assert (Hselk : S = 10 ^ kappa I /\ 1 <= kappa I /\ (S = 10 \/ S = 100)).
    { destruct Hsel as [(-> & _ & ->)|(-> & _ & ->)]; split_and!; try done; auto. }
    destruct Hselk as (HSk & Hk & HS).
    assert (Hfw : (2 * f + 1) * 2 ^ (e + l) < 2 ^ W).
    { eapply Z.lt_le_trans; [|exact HN]. apply Z.mul_lt_mono_pos_r; [apply Z.pow_pos_nonneg; lia|lia]. }
    assert (Htest : forall n, 0 < n <= 4 * half -> e = emin F \/ 2 * half <= n ->
      Z.odd n = true \/ fl xn xd n mod S = S / 2 -> itest I cval e l ca n = true <-> (xd | n * xn)).
    { intros n Hn1 Hn2 Hn3. unfold itest. fold W B. rewrite Z.ltb_lt. by apply Hint. }
    destruct (regular_case_ok I A cval cok nmax HA HW HS HSk Hk Hbig Hnmax f e lg l xn xd ca Hlg Hca Hl Hbeta Hcok
      Hxn Hxd ltac:(lia) Hfw) as (s & t & Hrun & Hs & Ht & Hin & Hnone & Hclose).
    - intros n Hn'. apply Hfl. lia.
    - apply Htest; [lia|apply Hmin; lia|]. left. rewrite Z.odd_add, Z.odd_mul. done.
    - replace (2 * f - 1) with (2 * f + -1) by lia.
      apply Htest; [lia|apply Hmin; lia|]. left. rewrite Z.odd_add, Z.odd_mul. done.
    - intros Hy. apply Htest; [lia| |by right]. replace (2 * f) with (2 * f + 0) by lia. apply Hmin. lia.
    - done.
    - eapply Z.le_trans; [apply Hflmono|exact Hzi]. lia.
    - exists s, (lg - kappa I + t). split; [exact Hrun|].
      assert (Hlow : low4 F x = 4 * f - 2) by (unfold low4; fold f e; destruct (decide (f = half /\ emin F < e)); lia).
      assert (Hden2 : Ed * 2 ^ (2 * W + 1 - (e + l)) = 2 * xd).
      { replace (2 * W + 1 - (e + l)) with (1 + (2 * W - (e + l))) by lia. rewrite Z.pow_add_r by lia.
        fold B. unfold xd. change (2 ^ 1) with 2. ring. }
      assert (Hzin : forall m, zin F x xn (2 * xd) m <-> within f xn xd m).
      { intros m. unfold zin, within, high4. rewrite Hlow. fold f.
        replace (m * (2 * xd)) with (2 * (m * xd)) by ring.
        replace ((4 * f - 2) * xn) with (2 * ((2 * f - 1) * xn)) by ring.
        replace ((4 * f + 2) * xn) with (2 * ((2 * f + 1) * xn)) by ring.
        split; (intros [H|(He2 & H)]; [left; lia|right; split; [exact He2|lia]]). }
      assert (Hzd : forall m, zdist F x xn (2 * xd) m = 2 * off f xn xd m).
      { intros m. unfold zdist, off. fold f. lia. }
      apply (shortest_scaled F ltac:(lia) x ltac:(split_and!; lia) Hpos (lg - kappa I) xn (2 * xd)); try lia.
      + rewrite <- Hden2. replace (lg - kappa I) with (- k) by lia. apply scale_ok. lia.
      + by apply Hzin.
      + intros m. rewrite Hzin. apply Hnone.
      + intros m. rewrite Hzin, !Hzd. intros Hm. apply Hclose in Hm. lia.
      + destruct (Z.le_gt_cases 10 f) as [?|Hsmall]; [by left|right]. split; [lia|].
        intros c Hc. rewrite Hzin, !Hzd. intros Hcin. apply Zmult_le_compat_l; [|lia].
        assert (Hee : e = emin F) by lia.
        destruct Hq0 as (lg' & l' & ca' & Hlg' & Hca' & Hl' & Hq).
        rewrite <- Hee in *. rewrite Hlg in Hlg'. injection Hlg' as <-. fold k in Hca', Hl'.
        rewrite Hca in Hca'. injection Hca' as <-. rewrite Hl in Hl'. injection Hl' as <-. fold B in Hq.
        rewrite Hfl in Hq by lia. unfold fl in Hq.
        apply (tiny f xn xd S q0 (kappa I) s t c); try done; try lia.
        pose proof (Z.div_mod (100 * xn) xd ltac:(lia)) as Hdm.
        pose proof (Z.mod_pos_bound (100 * xn) xd Hxd) as Hmb. rewrite Hq in Hdm. lia.
  Qed.

  Lemma shorter_shortest (x : number F) : valid x -> significand x = half -> emin F <= exponent x ->
    exists s j, shorter_interval_case I A (exponent x) = Ok (s, j) /\ shortest x s j.
  Proof using HW Hprec Hp Hshort.
    intros Hv Hhalf _. pose proof Hv as (Hf & He & Hn).
    set (e := exponent x) in *.
    destruct (Hshort e He) as (s & mk & l & t & Hrun & Hb & Hs & Ht & Hin & Hnone & Hclose).
    rewrite <- Hprec in Hin. setoid_rewrite <- Hprec in Hnone. setoid_rewrite <- Hprec in Hclose.
    fold W in Hb, Hin, Hnone, Hclose.
    set (num := power_num W (- mk) l (5 ^ Z.abs (- mk))) in *.
    set (Ed := power_den W (- mk) l (5 ^ Z.abs (- mk))) in *.
    assert (Hnum : 0 < num) by apply power_num_pos. assert (HEd : 0 < Ed) by apply power_den_pos.
    set (den := Ed * 2 ^ (2 * W + 1 - (e + l))) in *.
    assert (Hden : 0 < den) by (apply Z.mul_pos_pos; [done|apply Z.pow_pos_nonneg; lia]).
    assert (Hh : 128 <= half) by (change 128 with (2 ^ 7); apply Z.pow_le_mono_r; lia).
    assert (HY : 2 ^ (prec F + 1) = 4 * significand x).
    { rewrite Hhalf. replace (prec F + 1) with (2 + (prec F - 1)) by lia. rewrite Z.pow_add_r by lia. lia. }
    rewrite HY in Hin. setoid_rewrite HY in Hnone. setoid_rewrite HY in Hclose.
    assert (Hlow : low4 F x = 4 * significand x - (if e =? emin F then 2 else 1)).
    { unfold low4. fold e. destruct (Z.eqb_spec e (emin F)); case_decide; lia. }
    assert (Heven : Z.Even (significand x)) by (rewrite Hhalf; apply half_even; lia).
    exists s, (mk + t). split; [exact Hrun|].
    assert (Hzin : forall m, zin F x num den m <-> low4 F x * num <= m * den <= high4 F x * num).
    { intros m. unfold zin. split; [intros [H|H]; lia|]. intros H. right. split; [done|lia]. }
    rewrite <- Hlow in Hin. setoid_rewrite <- Hlow in Hnone. setoid_rewrite <- Hlow in Hclose.
    change (4 * significand x + 2) with (high4 F x) in Hin, Hnone, Hclose.
    apply (shortest_scaled F ltac:(lia) x Hv ltac:(lia) mk num den); try lia.
    - replace mk with (- - mk) at 1 by lia. apply scale_ok. lia.
    - by apply Hzin.
    - intros m. rewrite Hzin. apply Hnone.
    - intros m. rewrite Hzin. unfold zdist. apply Hclose.
  Qed.
  Context (Hbits : emax F - emin F + 2 = 2 ^ exponent_bits I - 1) (Heb : 1 <= exponent_bits I) (Hee : emin F <= emax F).
  Context (Hbias : emin F = 1 - (exponent_bias I + num_significand_bits I)).

  Lemma to_decimal_shortest br : finite_bits F br ->
    valid (of_bits F br) /\ exists s j, to_decimal I A br = Ok (s, j) /\ shortest (of_bits F br) s j.
  Proof using HA HW Hnmax Hbig Hsel Hprec Hp Hemin Hgood Hq0 Hshort Hbits Heb Hee Hbias.
    intros Hfb. unfold finite_bits in Hfb. set (m := prec F - 1) in *.
    assert (Hm : num_significand_bits I = m) by lia. assert (Hm0 : 0 <= m) by lia.
    pose proof (Z.pow_pos_nonneg 2 m ltac:(lia) Hm0) as H2m.
    set (sg := br mod 2 ^ m). set (bi := br / 2 ^ m).
    assert (Hsg : 0 <= sg < 2 ^ m) by (apply Z.mod_pos_bound; done).
    assert (Hdm : br = 2 ^ m * bi + sg) by (apply Z.div_mod; lia).
    assert (Hbi : 0 <= bi <= emax F - emin F + 1).
    { split; [apply Z.div_pos; lia|]. apply Z.lt_succ_r. apply Z.div_lt_upper_bound; [done|]. lia. }
    assert (H2p : 2 ^ prec F = 2 * 2 ^ m).
    { replace (prec F) with (1 + m) by lia. rewrite Z.pow_add_r by lia. lia. }
    assert (Hval : valid (of_bits F br)).
    { unfold valid, of_bits. fold m sg bi. rewrite H2p. destruct (Z.eqb_spec bi 0); cbn [significand exponent]; fold m; split_and!; lia. }
    split; [done|].
    assert (Hlow : Z.land br (2 ^ num_significand_bits I - 1) = sg) by (rewrite Hm; by apply land_low).
    assert (Hhigh : Z.shiftr (Z.land br (exponent_mask I)) (num_significand_bits I) = bi).
    { unfold exponent_mask. rewrite Hm, Z.shiftr_land, Z.shiftr_shiftl_l, Z.sub_diag, Z.shiftl_0_r by done.
      rewrite Z.shiftr_div_pow2 by done. fold bi. rewrite land_low by lia. apply Z.mod_small. lia. }
    unfold to_decimal. rewrite Hlow, Hhigh. revert Hval. unfold of_bits. fold m sg bi. intros Hval.
    destruct (Z.eqb_spec bi 0) as [Hb0|Hb0]; cbn [negb].
    - destruct (Z.eqb_spec sg 0) as [Hs0|Hs0].
      + exfalso. rewrite Hb0, Hs0 in Hdm. lia.
      + rewrite <- Hemin.
        destruct (regular_shortest (Number sg (emin F)) Hval) as (s & j & Hr & Hs); cbn in *; [lia|by left|].
        eauto.
    - replace (bi - (exponent_bias I + num_significand_bits I)) with (emin F + (bi - 1)) by lia.
      destruct (Z.eqb_spec sg 0) as [Hs0|Hs0].
      + destruct (shorter_shortest (Number (2 ^ m + sg) (emin F + (bi - 1))) Hval) as (s & j & Hr & Hs); cbn in *;
          [fold m; lia|lia|]. eauto.
      + rewrite Hm, lor_high by done.
        destruct (regular_shortest (Number (2 ^ m + sg) (emin F + (bi - 1))) Hval) as (s & j & Hr & Hs); cbn in *;
          [lia|right; fold m; lia|]. eauto.
  Qed.
End final.

(** The tables. *)
Definition okb (x : u128) : bool := (0 <=? fst x) && (fst x <? 2 ^ 64) && (0 <=? snd x) && (snd x <? 2 ^ 64).
Lemma okb_ok x : okb x = true -> u128_ok x.
Proof. unfold okb, u128_ok. rewrite !andb_true_iff, !Z.leb_le, !Z.ltb_lt. lia. Qed.
Definition okf (x : Z) : bool := (0 <=? x) && (x <? 2 ^ 64).
Lemma okf_ok x : okf x = true -> 0 <= x < 2 ^ 64.
Proof. unfold okf. rewrite !andb_true_iff, !Z.leb_le, !Z.ltb_lt. lia. Qed.

Lemma known_of (I : float_info) {E} (A : cache_accessor E) cval cokb sl (up down : nat) :
  check_ks I A cval cokb sl up 1 0 1 = true -> check_ks I A cval cokb sl down (-1) 0 1 = true ->
  forall k, - Z.of_nat down < k < Z.of_nat up -> known I A cval cokb sl k.
Proof.
  intros Hup Hdown k Hk. destruct (Z.le_gt_cases 0 k) as [H|H].
  - replace k with (0 + 1 * Z.of_nat (Z.to_nat k)) by lia.
    apply (check_ks_ok I A cval cokb sl up 1 0); [lia|exact Hup|lia].
  - replace k with (0 + -1 * Z.of_nat (Z.to_nat (- k))) by lia.
    apply (check_ks_ok I A cval cokb sl down (-1) 0); [lia|exact Hdown|lia].
Qed.

Lemma double_up : check_ks float_info_double accessor_double u128_val okb 3 342 1 0 1 = true.
Proof. vm_compute. reflexivity. Qed.
Lemma double_down : check_ks float_info_double accessor_double u128_val okb 3 293 (-1) 0 1 = true.
Proof. vm_compute. reflexivity. Qed.
Lemma double_es :
  check_es float_info_double accessor_double u128_val 3 (-1074) (2 ^ 63 + 2 ^ 62) (-1074) certs_double = true.
Proof. vm_compute. reflexivity. Qed.
Lemma double_shorts : check_shorts float_info_double accessor_double u128_val 3 (-1074) 2046 (-1074) = true.
Proof. vm_compute. reflexivity. Qed.
Lemma double_certs : length certs_double = 2046%nat.
Proof. vm_compute. reflexivity. Qed.
Lemma float_up : check_ks float_info_float accessor_float (fun x => x) okf 1 47 1 0 1 = true.
Proof. vm_compute. reflexivity. Qed.
Lemma float_down : check_ks float_info_float accessor_float (fun x => x) okf 1 32 (-1) 0 1 = true.
Proof. vm_compute. reflexivity. Qed.
Lemma float_es : check_es float_info_float accessor_float (fun x => x) 1 (-149) (2 ^ 32 - 1) (-149) certs_float = true.
Proof. vm_compute. reflexivity. Qed.
Lemma float_shorts : check_shorts float_info_float accessor_float (fun x => x) 1 (-149) 254 (-149) = true.
Proof. vm_compute. reflexivity. Qed.
Lemma float_certs : length certs_float = 254%nat.
Proof. vm_compute. reflexivity. Qed.

Lemma double_known k : min_k float_info_double <= k <= max_k float_info_double ->
  known float_info_double accessor_double u128_val okb 3 k.
Proof. intros H. cbn in H. apply (known_of _ _ _ _ _ 342 293 double_up double_down). lia. Qed.
Lemma float_known k : min_k float_info_float <= k <= max_k float_info_float ->
  known float_info_float accessor_float (fun x => x) okf 1 k.
Proof. intros H. cbn in H. apply (known_of _ _ _ _ _ 47 32 float_up float_down). lia. Qed.

Lemma double_good e : -1074 <= e <= 971 ->
  good float_info_double accessor_double u128_val u128_ok (-1074) (2 ^ 63 + 2 ^ 62) e.
Proof.
  intros He. replace e with (-1074 + Z.of_nat (Z.to_nat (e + 1074))) by lia.
  refine (check_es_ok float_info_double accessor_double u128_val u128_ok okb okb_ok 3 (-1074) (2 ^ 63 + 2 ^ 62) (-1074)
    certs_double _ _ _ double_known double_es _ _); [done..|]. rewrite double_certs. lia.
Qed.
Lemma double_good_short e : -1074 <= e <= 971 -> good_short float_info_double accessor_double (-1074) e.
Proof.
  intros He. replace e with (-1074 + Z.of_nat (Z.to_nat (e + 1074))) by lia.
  refine (check_shorts_ok float_info_double accessor_double u128_val u128_ok okb okb_ok 3 (-1074) 2046 (-1074)
    _ double_known double_shorts _ _); [done|lia].
Qed.
Lemma float_good e : -149 <= e <= 104 ->
  good float_info_float accessor_float (fun x => x) (fun c => 0 <= c < 2 ^ 64) (-149) (2 ^ 32 - 1) e.
Proof.
  intros He. replace e with (-149 + Z.of_nat (Z.to_nat (e + 149))) by lia.
  refine (check_es_ok float_info_float accessor_float (fun x => x) (fun c => 0 <= c < 2 ^ 64) okf okf_ok 1 (-149)
    (2 ^ 32 - 1) (-149) certs_float _ _ _ float_known float_es _ _); [done..|]. rewrite float_certs. lia.
Qed.
Lemma float_good_short e : -149 <= e <= 104 -> good_short float_info_float accessor_float (-149) e.
Proof.
  intros He. replace e with (-149 + Z.of_nat (Z.to_nat (e + 149))) by lia.
  refine (check_shorts_ok float_info_float accessor_float (fun x => x) (fun c => 0 <= c < 2 ^ 64) okf okf_ok 1 (-149)
    254 (-149) _ float_known float_shorts _ _); [done|lia].
Qed.

Lemma double_unit : exists lg l ca, floor_log10_pow2 (emin binary64) = Ok lg /\
  get_cached_power accessor_double (- (lg - kappa float_info_double)) = Ok ca /\
  floor_log2_pow10 (- (lg - kappa float_info_double)) = Ok l /\
  100 * u128_val ca / 2 ^ (2 * carrier_bits float_info_double - (emin binary64 + l)) = 24703.
Proof.
  exists (-324), 1082, (17800590868057611064, 13315998749649870504). split_and!; vm_compute; reflexivity.
Qed.
Lemma to_decimal_double_shortest br : finite_bits binary64 br ->
  valid (of_bits binary64 br) /\ exists s j, to_decimal_double br = Ok (s, j) /\ shortest (of_bits binary64 br) s j.
Proof.
  assert (HW : 32 <= carrier_bits float_info_double) by done.
  assert (Hn : 2 ^ 63 + 2 ^ 62 < 2 ^ carrier_bits float_info_double) by done.
  assert (Hb : big_divisor float_info_double = 10 * small_divisor float_info_double) by done.
  assert (Hs : small_divisor float_info_double = 10 /\ 24703 = 700 /\ kappa float_info_double = 1 \/
    small_divisor float_info_double = 100 /\ 24703 = 24703 /\ kappa float_info_double = 2) by (right; done).
  assert (Hp : prec binary64 = num_significand_bits float_info_double + 1) by done.
  assert (Hp8 : 8 <= prec binary64) by done.
  assert (Hm : emin binary64 = min_exponent float_info_double - num_significand_bits float_info_double - 1) by done.
  assert (Hbits : emax binary64 - emin binary64 + 2 = 2 ^ exponent_bits float_info_double - 1) by done.
  assert (Heb : 1 <= exponent_bits float_info_double) by done.
  assert (Hee : emin binary64 <= emax binary64) by done.
  assert (Hbias : emin binary64 = 1 - (exponent_bias float_info_double + num_significand_bits float_info_double)) by done.
  exact (to_decimal_shortest float_info_double accessor_double u128_val u128_ok (2 ^ 63 + 2 ^ 62)
    accessor_double_ok binary64 24703 HW Hn Hb Hs Hp Hp8 Hm double_good double_good_short double_unit Hbits Heb Hee Hbias br).
Qed.
Lemma float_unit : exists lg l ca, floor_log10_pow2 (emin binary32) = Ok lg /\
  get_cached_power accessor_float (- (lg - kappa float_info_float)) = Ok ca /\
  floor_log2_pow10 (- (lg - kappa float_info_float)) = Ok l /\
  100 * (fun x => x) ca / 2 ^ (2 * carrier_bits float_info_float - (emin binary32 + l)) = 700.
Proof. exists (-45), 152, 16155871338926321775. split_and!; vm_compute; reflexivity. Qed.
Lemma to_decimal_float_shortest br : finite_bits binary32 br ->
  valid (of_bits binary32 br) /\ exists s j, to_decimal_float br = Ok (s, j) /\ shortest (of_bits binary32 br) s j.
Proof.
  assert (HW : 32 <= carrier_bits float_info_float) by done.
  assert (Hn : 2 ^ 32 - 1 < 2 ^ carrier_bits float_info_float) by done.
  assert (Hb : big_divisor float_info_float = 10 * small_divisor float_info_float) by done.
  assert (Hs : small_divisor float_info_float = 10 /\ 700 = 700 /\ kappa float_info_float = 1 \/
    small_divisor float_info_float = 100 /\ 700 = 24703 /\ kappa float_info_float = 2) by (left; done).
  assert (Hp : prec binary32 = num_significand_bits float_info_float + 1) by done.
  assert (Hp8 : 8 <= prec binary32) by done.
  assert (Hm : emin binary32 = min_exponent float_info_float - num_significand_bits float_info_float - 1) by done.
  assert (Hbits : emax binary32 - emin binary32 + 2 = 2 ^ exponent_bits float_info_float - 1) by done.
  assert (Heb : 1 <= exponent_bits float_info_float) by done.
  assert (Hee : emin binary32 <= emax binary32) by done.
  assert (Hbias : emin binary32 = 1 - (exponent_bias float_info_float + num_significand_bits float_info_float)) by done.
  exact (to_decimal_shortest float_info_float accessor_float (fun x => x) (fun c => 0 <= c < 2 ^ 64) (2 ^ 32 - 1)
    accessor_float_ok binary32 700 HW Hn Hb Hs Hp Hp8 Hm float_good float_good_short float_unit Hbits Heb Hee Hbias br).
Qed.

Lemma of_bits_inj F a b : 2 <= prec F -> finite_bits F a -> finite_bits F b -> of_bits F a = of_bits F b -> a = b.
Proof.
  intros Hp Ha Hb. unfold finite_bits in *. set (m := prec F - 1) in *.
  pose proof (Z.pow_pos_nonneg 2 m ltac:(lia) ltac:(lia)) as H2m. unfold of_bits. fold m.
  pose proof (Z.mod_pos_bound a (2 ^ m) H2m). pose proof (Z.mod_pos_bound b (2 ^ m) H2m).
  pose proof (Z.div_mod a (2 ^ m) ltac:(lia)). pose proof (Z.div_mod b (2 ^ m) ltac:(lia)).
  assert (Hb0 : 0 <= b / 2 ^ m) by (apply Z.div_pos; lia). assert (Ha0 : 0 <= a / 2 ^ m) by (apply Z.div_pos; lia).
  destruct (Z.eqb_spec (a / 2 ^ m) 0) as [E1|E1], (Z.eqb_spec (b / 2 ^ m) 0) as [E2|E2]; intros Heq;
    pose proof (f_equal significand Heq); pose proof (f_equal exponent Heq); cbn [significand exponent] in *;
    lia.
Qed.
Lemma of_bits_pos F br : 2 <= prec F -> finite_bits F br -> 0 < significand (of_bits F br).
Proof.
  intros Hp Ha. unfold finite_bits in *. set (m := prec F - 1) in *.
  pose proof (Z.pow_pos_nonneg 2 m ltac:(lia) ltac:(lia)) as H2m. unfold of_bits. fold m.
  pose proof (Z.mod_pos_bound br (2 ^ m) H2m). pose proof (Z.div_mod br (2 ^ m) ltac:(lia)).
  destruct (Z.eqb_spec (br / 2 ^ m) 0) as [E1|E1]; cbn [significand]; [rewrite E1 in *; lia|lia].
Qed.

Lemma shortest_apart F a b s j s' j' : 2 <= prec F -> finite_bits F a -> finite_bits F b ->
  valid (of_bits F a) -> valid (of_bits F b) ->
  shortest (of_bits F a) s j -> shortest (of_bits F b) s' j' -> (decimal s j == decimal s' j')%Q -> a = b.
Proof.
  intros Hp Ha Hb Hva Hvb (_ & Hra & _) (_ & Hrb & _) Heq. apply (of_bits_inj F); try done.
  apply (reads_unique F Hp _ _ (decimal s j)); try done; [by apply of_bits_pos..|].
  destruct Hrb as [H1 H2]. split; [by rewrite Heq|]. intros y Hy Hne. rewrite Heq. by apply H2.
Qed.
