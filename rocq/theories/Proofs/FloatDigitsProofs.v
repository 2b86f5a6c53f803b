(** The digits that format_float makes. *)
From Coq Require Import QArith Qpower Qabs Lqa.
From Verif Require Import Base.Cpp Model.Numeric Model.FmtInt Model.Format Model.Dragonbox Model.FloatLayout Model.Bigint Model.FloatDigits
  Spec.FormatSpec Spec.FloatSpec Spec.FloatText Spec.FloatRound
  Proofs.FmtIntProofs Proofs.FloatSpecProofs Proofs.DragonboxArith Proofs.DragonboxProofs Proofs.SegmentProofs Proofs.FirstSegment
  Proofs.DragonProofs Proofs.FloatLayoutProofs Proofs.FloatTextProofs.
Set Default Proof Using "Type".
Local Open Scope Z_scope.
Local Notation decimal := FloatSpec.decimal.

Lemma nearest_even_proper x y m : (x == y)%Q -> nearest_even x m -> nearest_even y m.
Proof.
  intros Heq [H1 H2]. unfold nearest_even. split.
  - by rewrite <- Heq.
  - intros H. apply H2. by rewrite Heq.
Qed.
Lemma nearest_even_ge y a m : (inject_Z a <= y)%Q -> nearest_even y m -> a <= m.
Proof.
  intros Ha [H _]. apply Qabs_Qle_condition in H as [H1 H2].
  assert (Hlt : (inject_Z a < inject_Z (m + 1))%Q).
  { rewrite inject_Z_plus. change (inject_Z 1) with 1%Q. lra. }
  rewrite <- Zlt_Qlt in Hlt. lia.
Qed.
Lemma nearest_even_le y b m : (y < inject_Z b)%Q -> nearest_even y m -> m <= b.
Proof.
  intros Hb [H _]. apply Qabs_Qle_condition in H as [H1 H2].
  assert (Hlt : (inject_Z m < inject_Z (b + 1))%Q).
  { rewrite inject_Z_plus. change (inject_Z 1) with 1%Q. lra. }
  rewrite <- Zlt_Qlt in Hlt. lia.
Qed.
Lemma p10_scale v a b c : a + b = c -> (v * p10 a * p10 b == v * p10 c)%Q.
Proof. intros <-. rewrite p10_add. ring. Qed.
(** A number of the size [10^x] with [k] digits before the point. *)
Lemma scaled_range v x k : (p10 x <= v)%Q -> (v < p10 (x + 1))%Q -> 1 <= k ->
  (inject_Z (10 ^ (k - 1)) <= v * p10 (k - 1 - x))%Q /\ (v * p10 (k - 1 - x) < inject_Z (10 ^ k))%Q.
Proof.
  intros H1 H2 Hk. rewrite <- !p10_Z by lia. pose proof (p10_pos (k - 1 - x)) as Hp.
  assert (E1 : (p10 (k - 1) == p10 x * p10 (k - 1 - x))%Q) by (rewrite <- p10_add; by replace (x + (k - 1 - x)) with (k - 1) by lia).
  assert (E2 : (p10 k == p10 (x + 1) * p10 (k - 1 - x))%Q) by (rewrite <- p10_add; by replace (x + 1 + (k - 1 - x)) with k by lia).
  rewrite E1, E2. split; [by apply Qmult_le_r|by apply Qmult_lt_r].
Qed.

Definition float_core (br single : Z) (precision : Z) (fs : float_specs) : res (list Z * Z) :=
  let fixed := bool_decide (fs_format fs = Fixed) in
  let* (first_segment, has_more_segments, digits, exp) := get_first_segment br in
  let* precision := if fixed then adjust_precision precision (exp + digits) else Ok precision in
  if decide (precision < digits) then
    if decide (precision <= 0) then
      Ok ((if decide (precision < 0) then []
           else if decide (5000000000000000000 < Z.lor first_segment (Z.b2z has_more_segments)) then [49] else [48]),
          exp + digits)
    else segment_digits first_segment has_more_segments fixed precision (exp + (digits - precision))
  else
    let exp := exp + (digits - 1) in
    let '(f, e, closer) :=
      if fs_binary32 fs then fp_assign float_info_float single else fp_assign float_info_double br in
    format_dragon f e closer fixed (Z.min precision 767) exp.

Lemma lor_bit S b : 0 <= S -> (5000000000000000000 < Z.lor S (Z.b2z b)) <-> (5 * 10 ^ 18 < S \/ (S = 5 * 10 ^ 18 /\ b = true)).
Proof.
  intros HS. destruct b; cbn [Z.b2z]; [|rewrite Z.lor_0_r; lia].
  assert (Hlor : Z.lor S 1 = if Z.odd S then S else S + 1).
  { destruct S as [|[q|q|]|]; done. }
  rewrite Hlor. destruct (Z.odd S) eqn:Ho; [|lia].
  split; [intros; left; lia|]. intros [|[-> _]]; [lia|]. done.
Qed.

Section core.
  Context (br single precision : Z) (fs : float_specs) (f e : Z) (closer : bool).
  Let v := value (of_bits binary64 br).
  Let fixed := bool_decide (fs_format fs = Fixed).
  Hypothesis Hbr : finite_bits binary64 br.
  Hypothesis Hfp : (if fs_binary32 fs then fp_assign float_info_float single else fp_assign float_info_double br) = (f, e, closer).
  Hypothesis Hf : 0 < f < 2 ^ 53.
  Hypothesis He : -2000 <= e <= 2000.
  Hypothesis Hv : (v == inject_Z f * p2 e)%Q.

  Lemma core_cases : 0 <= precision ->
    exists x, -330 <= x <= 320 /\ (p10 x <= v)%Q /\ (v < p10 (x + 1))%Q /\
      (fixed = true -> 0 <= x -> max_int < precision + x + 1 -> float_core br single precision fs = Throw) /\
      let P := if fixed then precision + x + 1 else precision in
      (fixed = true -> 0 <= x -> precision + x + 1 <= max_int) ->
      (0 < P -> exists M, let K := Z.min P 767 in nearest_even (v * p10 (K - 1 - x)) M /\ 10 ^ (K - 1) <= M <= 10 ^ K /\
        float_core br single precision fs = Ok (rounded_chars fixed K M (x + 1 - K))) /\
      (P = 0 -> exists M, nearest_even (v * p10 (- 1 - x)) M /\ (M = 0 \/ M = 1) /\
        float_core br single precision fs = Ok ([48 + M], x + 1)) /\
      (P < 0 -> float_core br single precision fs = Ok ([], x + 1)).
  Proof using Hbr Hfp Hf He Hv.
    intros Hpr. destruct (first_segment_ok br Hbr) as (N & X & t & exp & Hrun & HN & HX & Ht & Hexp & HS & Hval).
    fold v in Hval. set (S := N / X * 10 ^ t) in *. set (more := negb (N mod X =? 0)) in *.
    exists (exp + 18 - t).
    assert (HNX : 10 ^ (18 - t) * X <= N < 10 ^ (19 - t) * X).
    { pose proof (Z.div_mod N X ltac:(lia)) as Hdm. pose proof (Z.mod_pos_bound N X HX) as Hm. unfold S in HS.
      set (F := N / X) in *.
      destruct Ht as [-> | ->]; [change (10 ^ 0) with 1 in HS|change (10 ^ 1) with 10 in HS].
      - change (18 - 0) with 18. change (19 - 0) with 19. nia.
      - change (10 ^ (18 - 1)) with (10 ^ 17). change (10 ^ (19 - 1)) with (10 ^ 18). nia. }
    assert (Hrange : (p10 (exp + 18 - t) <= v)%Q /\ (v < p10 (exp + 18 - t + 1))%Q).
    { assert (HXq : (0 < inject_Z X)%Q) by (change 0%Q with (inject_Z 0); by rewrite <- Zlt_Qlt).
      assert (Hpq : (0 < p10 (- exp) * inject_Z X)%Q) by (apply Qmult_lt_0_compat; [apply p10_pos|done]).
      destruct HNX as [H1 H2]. rewrite Zle_Qle in H1. rewrite Zlt_Qlt in H2. rewrite <- Hval, inject_Z_mult, <- p10_Z in H1, H2 by lia.
      split.
      - apply (Qmult_le_r _ _ (p10 (- exp) * inject_Z X)); [done|]. rewrite !Qmult_assoc, <- p10_add.
        by replace (exp + 18 - t + - exp) with (18 - t) by lia.
      - apply (Qmult_lt_r _ _ (p10 (- exp) * inject_Z X)); [done|]. rewrite !Qmult_assoc, <- p10_add.
        by replace (exp + 18 - t + 1 + - exp) with (19 - t) by lia. }
    destruct Hrange as [Hlo Hhi]. split; [lia|]. split; [done|]. split; [done|].
    set (x := exp + 18 - t) in *. split.
    { intros Hfx Hx Hbig. unfold float_core. fold fixed. rewrite Hrun, Hfx. cbn [bind]. unfold adjust_precision.
      rewrite decide_True by (unfold x in *; lia). done. }
    set (P := if fixed then precision + x + 1 else precision). cbv zeta. intros Hmax.
    assert (Hcore : float_core br single precision fs =
      if decide (P < 19 - t) then
        if decide (P <= 0) then
          Ok ((if decide (P < 0) then [] else if decide (5000000000000000000 < Z.lor S (Z.b2z more)) then [49] else [48]), x + 1)
        else segment_digits S more fixed P (x + 1 - P)
      else format_dragon f e closer fixed (Z.min P 767) x).
    { unfold float_core. fold fixed. rewrite Hrun. cbn [bind].
      assert (Hadj : (if fixed then adjust_precision precision (exp + (19 - t)) else Ok precision) = Ok P).
      { unfold P. destruct fixed; [|done]. unfold adjust_precision. specialize (Hmax eq_refl).
        rewrite decide_False by (unfold x in *; lia). f_equal. unfold x. lia. }
      rewrite Hadj. cbn [bind]. cbv zeta. rewrite Hfp.
      replace (exp + (19 - t)) with (x + 1) by (unfold x; lia).
      replace (exp + (19 - t - P)) with (x + 1 - P) by (unfold x; lia).
      by replace (exp + (19 - t - 1)) with x by (unfold x; lia). }
    rewrite Hcore. clear Hcore.
    split; [|split].
    - intros HP. destruct (decide (P < 19 - t)) as [Hlt|Hge].
      + rewrite decide_False by lia. rewrite Z.min_l by lia.
        exists (rne N (X * 10 ^ (19 - P - t))).
        assert (Hne : nearest_even (v * p10 (P - 1 - x)) (rne N (X * 10 ^ (19 - P - t)))).
        { apply rne_nearest; [apply Z.mul_pos_pos; [done|apply Z.pow_pos_nonneg; lia]|].
          rewrite inject_Z_mult, <- (p10_Z (19 - P - t)), (Qmult_comm (inject_Z X)), Qmult_assoc by lia.
          rewrite (p10_scale v _ _ (- exp)) by (unfold x; lia). exact Hval. }
        destruct (scaled_range v x P Hlo Hhi ltac:(lia)) as [Hs1 Hs2].
        split; [exact Hne|]. split; [split|].
        * by apply (nearest_even_ge _ _ _ Hs1).
        * by apply (nearest_even_le _ _ _ Hs2).
        * rewrite segment_digits_ok by lia. do 3 f_equal.
          pose proof (rne_segment N X (19 - P - t) t more HN HX ltac:(lia) ltac:(lia) eq_refl) as Hseg. cbv zeta in Hseg.
          replace (19 - P - t + t) with (19 - P) in Hseg by lia. exact Hseg.
      + set (K := Z.min P 767). assert (HK : 1 <= K) by lia.
        assert (Hlo' : (p10 x <= inject_Z f * p2 e)%Q) by (by rewrite <- Hv).
        assert (Hhi' : (inject_Z f * p2 e < p10 (x + 1))%Q) by (by rewrite <- Hv).
        destruct (format_dragon_ok f e x closer fixed K Hf He ltac:(unfold x; lia) HK Hlo' Hhi') as (N' & D & HD & HND & Hq & ->).
        exists (rne (N' * 10 ^ (K - 1)) D).
        assert (Hne : nearest_even (v * p10 (K - 1 - x)) (rne (N' * 10 ^ (K - 1)) D)).
        { apply rne_nearest; [done|]. rewrite inject_Z_mult, <- (p10_Z (K - 1)), <- Hq, Hv by lia.
          rewrite <- (p10_scale (inject_Z f * p2 e) (- x) (K - 1)) by lia. ring. }
        destruct (scaled_range v x K Hlo Hhi ltac:(lia)) as [Hs1 Hs2].
        split; [exact Hne|]. split; [split|].
        * by apply (nearest_even_ge _ _ _ Hs1).
        * by apply (nearest_even_le _ _ _ Hs2).
        * do 2 f_equal. lia.
    - intros HP. rewrite decide_True by lia. rewrite decide_True by lia. rewrite decide_False by lia.
      set (up := decide (5000000000000000000 < Z.lor S (Z.b2z more))).
      exists (if up then 1 else 0). split; [|split; [destruct up; lia|destruct up; done]].
      apply (nearest_even_Z _ N (X * 10 ^ (19 - t))); [apply Z.mul_pos_pos; [done|apply Z.pow_pos_nonneg; lia]| |].
      { rewrite inject_Z_mult, <- (p10_Z (19 - t)), (Qmult_comm (inject_Z X)), Qmult_assoc by lia.
        rewrite (p10_scale v _ _ (- exp)) by (unfold x; lia). exact Hval. }
      pose proof (Z.div_mod N X ltac:(lia)) as Hdm. pose proof (Z.mod_pos_bound N X HX) as Hm. unfold S in up.
      assert (Hlor := lor_bit S more ltac:(lia)). unfold S in Hlor. set (F := N / X) in *. 
      assert (Hmore : more = true <-> N mod X <> 0) by (unfold more; destruct (Z.eqb_spec (N mod X) 0); cbn; split; done || lia).
      set (r := N mod X) in *. clearbody more.
      destruct Ht as [-> | ->].
      + change (10 ^ 0) with 1 in *. change (19 - 0) with 19 in *. change (18 - 0) with 18 in *.
        destruct up as [Hup|Hup].
        * apply Hlor in Hup. rewrite Hmore in Hup. split; [nia|]. intros. exfalso. nia.
        * assert (Hnot : ~ (5 * 10 ^ 18 < F * 1 \/ (F * 1 = 5 * 10 ^ 18 /\ r <> 0))) by (intros Hc; apply Hup, Hlor; by rewrite Hmore).
          split; [nia|]. intros. by exists 0.
      + change (10 ^ 1) with 10 in *. change (19 - 1) with 18 in *. change (18 - 1) with 17 in *.
        destruct up as [Hup|Hup].
        * apply Hlor in Hup. rewrite Hmore in Hup. split; [nia|]. intros. exfalso. nia.
        * assert (Hnot : ~ (5 * 10 ^ 18 < F * 10 \/ (F * 10 = 5 * 10 ^ 18 /\ r <> 0))) by (intros Hc; apply Hup, Hlor; by rewrite Hmore).
          split; [nia|]. intros. by exists 0.
    - intros HP. rewrite !decide_True by lia. done.
  Qed.
End core.

(** ** The numbers that the bits are *)
Lemma fp_assign_ok I F br : prec F = num_significand_bits I + 1 -> 1 <= num_significand_bits I ->
  exponent_mask I = Z.shiftl (Z.ones (exponent_bits I)) (num_significand_bits I) -> 0 <= exponent_bits I ->
  emax F - emin F + 2 <= 2 ^ exponent_bits I -> emin F = 1 - exponent_bias I - num_significand_bits I -> emin F <= emax F ->
  finite_bits F br -> exists f e closer, fp_assign I br = (f, e, closer) /\ 0 < f < 2 ^ prec F /\ emin F <= e <= emax F /\
    (value (of_bits F br) == inject_Z f * p2 e)%Q /\ (emin F < e -> 2 ^ num_significand_bits I <= f).
Proof.
  intros Hp Hn Hmask Heb Hex Hemin Hmm Hfin. unfold fp_assign. pose proof (of_bits_pos F br ltac:(lia) Hfin) as Hpos.
  unfold finite_bits in Hfin. unfold of_bits in *. rewrite Hp in *.
  replace (num_significand_bits I + 1 - 1) with (num_significand_bits I) in * by lia.
  set (w := num_significand_bits I) in *. assert (Hpw : 0 < 2 ^ w) by (apply pow2_pos; lia).
  set (fr := br mod 2 ^ w) in *. set (bi := br / 2 ^ w) in *.
  pose proof (Z.mod_pos_bound br (2 ^ w) Hpw) as Hfr. fold fr in Hfr.
  assert (Hbi : 0 <= bi < emax F - emin F + 2).
  { split; [apply Z.div_pos; lia|]. apply Z.div_lt_upper_bound; [done|]. rewrite Z.mul_comm. lia. }
  assert (H1 : Z.land br (Z.shiftl 1 w - 1) = fr) by (rewrite Z.shiftl_1_l; apply land_low; lia).
  assert (H2 : Z.shiftr (Z.land br (exponent_mask I)) w = bi).
  { rewrite Hmask, Z.shiftr_land, Z.shiftr_shiftl_l, Z.sub_diag, Z.shiftl_0_r by lia.
    rewrite Z.land_ones, Z.shiftr_div_pow2 by lia. fold bi. apply Z.mod_small. lia. }
  rewrite H1, H2. rewrite Z.shiftl_1_l. rewrite Z.pow_add_r by lia. change (2 ^ 1) with 2.
  destruct (Z.eqb_spec bi 0) as [Hz|Hz]; cbn [significand] in Hpos.
  - rewrite decide_True by done. do 3 eexists. split; [reflexivity|]. split; [lia|]. split; [lia|]. split; [|lia].
    unfold value. cbn [significand exponent]. by rewrite Hemin.
  - rewrite decide_False by done. do 3 eexists. split; [reflexivity|]. split; [lia|]. split; [lia|]. split; [|lia].
    unfold value. cbn [significand exponent]. rewrite (Z.add_comm fr).
    by replace (emin F + (bi - 1)) with (bi - exponent_bias I - w) by lia.
Qed.

Lemma widen_ok br : finite_bits binary32 br ->
  finite_bits binary64 (widen br) /\ (value (of_bits binary64 (widen br)) == value (of_bits binary32 br))%Q.
Proof.
  intros Hfin. pose proof (of_bits_pos binary32 br ltac:(done) Hfin) as Hpos.
  unfold finite_bits in *. cbn [binary32 binary64 prec emin emax] in *.
  change (104 - -149 + 2) with 255 in Hfin. change (971 - -1074 + 2) with 2047. change (24 - 1) with 23 in *. change (53 - 1) with 52.
  set (fr := br mod 2 ^ 23) in *. set (bi := br / 2 ^ 23) in *.
  pose proof (Z.mod_pos_bound br (2 ^ 23) ltac:(lia)) as Hfr. fold fr in Hfr.
  assert (Hbi : 0 <= bi < 255) by (split; [apply Z.div_pos; lia|apply Z.div_lt_upper_bound; lia]).
  assert (Hof : of_bits binary32 br = if bi =? 0 then Number fr (-149) else Number (2 ^ 23 + fr) (-149 + (bi - 1))) by done.
  assert (H64 : forall b fraction, 0 <= fraction < 2 ^ 52 -> 0 < b ->
    of_bits binary64 (b * 2 ^ 52 + fraction) = Number (2 ^ 52 + fraction) (-1074 + (b - 1))).
  { intros b fraction Hfrac Hb. unfold of_bits. cbn [binary64 prec emin]. change (53 - 1) with 52.
    assert ((b * 2 ^ 52 + fraction) / 2 ^ 52 = b) as -> by (symmetry; apply (Z.div_unique_pos _ _ _ fraction); lia).
    assert ((b * 2 ^ 52 + fraction) mod 2 ^ 52 = fraction) as -> by (symmetry; apply (Z.mod_unique_pos _ _ b); lia).
    destruct (Z.eqb_spec b 0); [lia|done]. }
  unfold widen. change (2 ^ 23 - 1) with (Z.ones 23). rewrite Z.land_ones, Z.shiftr_div_pow2 by lia. fold fr bi.
  rewrite Hof in *. destruct (Z.eqb_spec bi 0) as [Hz|Hz]; cbn [significand] in Hpos.
  - rewrite decide_True by done. rewrite decide_False by lia. set (l := Z.log2 fr).
    assert (Hlg : 2 ^ l <= fr < 2 ^ (l + 1)) by (apply Z.log2_spec; lia).
    assert (Hl : 0 <= l < 23) by (split; [apply Z.log2_nonneg|apply Z.log2_lt_pow2; lia]).
    assert (Hp : 2 ^ l * 2 ^ (52 - l) = 2 ^ 52) by (rewrite <- Z.pow_add_r by lia; f_equal; lia).
    assert (Hpp : 0 < 2 ^ (52 - l)) by (apply pow2_pos; lia).
    rewrite Z.pow_add_r in Hlg by lia. change (2 ^ 1) with 2 in Hlg.
    assert (Hfb : 0 <= (fr - 2 ^ l) * 2 ^ (52 - l) < 2 ^ 52).
    { split; [apply Z.mul_nonneg_nonneg; lia|]. rewrite <- Hp. apply Z.mul_lt_mono_pos_r; lia. }
    split; [lia|]. rewrite H64 by lia. unfold value. cbn [significand exponent].
    replace (2 ^ 52 + (fr - 2 ^ l) * 2 ^ (52 - l)) with (fr * 2 ^ (52 - l)) by (rewrite <- Hp; ring).
    rewrite inject_Z_mult, <- (p2_Z (52 - l)) by lia. rewrite <- Qmult_assoc, <- p2_add.
    by replace (52 - l + (-1074 + (l + 874 - 1))) with (-149) by lia.
  - rewrite decide_False by done. rewrite decide_False by lia. split; [lia|].
    rewrite H64 by lia. unfold value. cbn [significand exponent].
    replace (2 ^ 52 + fr * 2 ^ 29) with ((2 ^ 23 + fr) * 2 ^ 29) by lia.
    rewrite inject_Z_mult, <- (p2_Z 29) by lia. rewrite <- Qmult_assoc, <- p2_add.
    by replace (29 + (-1074 + (bi + 896 - 1))) with (-149 + (bi - 1)) by lia.
Qed.

(** ** The digits *)
Lemma decs_head K m : 10 ^ Z.of_nat K <= m < 10 ^ Z.of_nat (S K) -> exists d ds, decs (S K) m = d :: ds /\ 0 < d.
Proof.
  revert m. induction K as [|K IH]; intros m Hm.
  - change (10 ^ Z.of_nat 0) with 1 in Hm. change (10 ^ Z.of_nat 1) with 10 in Hm. exists m, []. cbn. rewrite Z.mod_small by lia. split; [done|lia].
  - rewrite (Nat2Z.inj_succ K), (Nat2Z.inj_succ (S K)), !Z.pow_succ_r in Hm by lia.
    rewrite (Nat2Z.inj_succ K), Z.pow_succ_r in Hm by lia.
    destruct (IH (m / 10)) as (d & ds & Hds & Hd).
    { rewrite (Nat2Z.inj_succ K), Z.pow_succ_r by lia. split; [apply Z.div_le_lower_bound; lia|apply Z.div_lt_upper_bound; lia]. }
    exists d, (ds ++ [m mod 10]). split; [|done]. change (decs (S (S K)) m) with (decs (S K) (m / 10) ++ [m mod 10]). by rewrite Hds.
Qed.
Lemma decs_digits_of K m : 1 <= K -> 10 ^ (K - 1) <= m < 10 ^ K -> digits_of 10 m (decs (Z.to_nat K) m).
Proof.
  intros HK Hm. assert (Hpos : 0 < 10 ^ (K - 1)) by (apply Z.pow_pos_nonneg; lia). split_and!.
  - apply decs_digits.
  - rewrite number_decs by lia. rewrite Z2Nat.id by lia. apply Z.mod_small. lia.
  - intros H. apply (f_equal length) in H. rewrite decs_length in H. cbn in H. lia.
  - replace (Z.to_nat K) with (S (Z.to_nat (K - 1))) by lia.
    destruct (decs_head (Z.to_nat (K - 1)) m) as (d & ds & -> & Hd).
    { rewrite Nat2Z.inj_succ, Z2Nat.id by lia. by replace (Z.succ (K - 1)) with K by lia. }
    cbn. intros [= ->]. lia.
Qed.
Lemma pow_digits_of n : digits_of 10 (10 ^ Z.of_nat n) (1 :: replicate n 0).
Proof.
  split_and!.
  - apply Forall_cons. split; [lia|]. apply Forall_replicate. lia.
  - rewrite number_cons, numb_zeros, replicate_length. lia.
  - done.
  - cbn. done.
Qed.
Lemma rounded_ok (fixed : bool) K M exp : 1 <= K -> 10 ^ (K - 1) <= M <= 10 ^ K ->
  exists ds m j, rounded_chars fixed K M exp = (digit_text ds, j) /\ digits_of 10 m ds /\ (decimal m j == decimal M exp)%Q /\
    (fixed = true -> m = M /\ j = exp) /\ (fixed = false -> Z.of_nat (length ds) = K /\ 10 ^ (K - 1) <= m < 10 ^ K).
Proof.
  intros HK HM. unfold rounded_chars. destruct (decide (M < 10 ^ K)) as [Hlt|Hge].
  - exists (decs (Z.to_nat K) M), M, exp. rewrite chars_text. split_and!; try done.
    + apply decs_digits_of; lia.
    + intros _. rewrite decs_length. lia.
  - assert (M = 10 ^ K) as -> by lia. destruct fixed.
    + exists (1 :: replicate (Z.to_nat K) 0), (10 ^ K), exp. split_and!; try done.
      * cbn. rewrite fmap_replicate. done.
      * rewrite <- (Z2Nat.id K) at 1 by lia. apply pow_digits_of.
    + exists (1 :: replicate (Z.to_nat (K - 1)) 0), (10 ^ (K - 1)), (exp + 1). split_and!; try done.
      * cbn. rewrite fmap_replicate. done.
      * rewrite <- (Z2Nat.id (K - 1)) at 1 by lia. apply pow_digits_of.
      * rewrite <- decimal_mul by lia. by rewrite Z.pow_1_r, Z.mul_comm, <- Z.pow_succ_r, Z.sub_1_r, Z.succ_pred by lia.
      * intros _. cbn [length]. rewrite replicate_length. split; [lia|]. split; [lia|].
        apply Z.pow_lt_mono_r; lia.
Qed.

(** Zeros at the end are dropped. *)
Lemma remove_zeros_ok ds m j : digits_of 10 m ds -> 0 < m ->
  exists ds' m' j', remove_zeros (digit_text ds) j = Ok (digit_text ds', j') /\ digits_of 10 m' ds' /\ m' mod 10 <> 0 /\
    Z.of_nat (length ds') + j' = Z.of_nat (length ds) + j /\ j <= j' /\ m = m' * 10 ^ (j' - j) /\
    (m mod 10 <> 0 -> ds' = ds /\ j' = j).
Proof.
  intros Hds Hm. unfold remove_zeros. rewrite digit_text_length.
  assert (Hw : wp (loop (S (length ds)) (fun '(num, exp) =>
    if decide (0 < num)%nat then
      let* c := get (digit_text ds) (num - 1) in
      Ok (if decide (c = 48) then inl ((num - 1)%nat, exp + 1) else inr (take num (digit_text ds), exp))
    else Ok (inr (take num (digit_text ds), exp))) (length ds, j))
    (fun '(buf, j') => exists ds' m', buf = digit_text ds' /\ digits_of 10 m' ds' /\ m' mod 10 <> 0 /\
      Z.of_nat (length ds') + j' = Z.of_nat (length ds) + j /\ j <= j' /\ m = m' * 10 ^ (j' - j) /\
      (m mod 10 <> 0 -> ds' = ds /\ j' = j))).
  { apply (wp_loop (fun '(num, j') => (num <= length ds)%nat /\ Z.of_nat num + j' = Z.of_nat (length ds) + j /\ j <= j' /\
      m = FormatSpec.number 10 (take num ds) * 10 ^ (j' - j) /\ (m mod 10 <> 0 -> num = length ds)) (fun '(num, _) => num)).
    - lia.
    - rewrite firstn_all, Z.sub_diag. split_and!; try lia. destruct Hds as (_ & Hn & _). rewrite Hn. lia.
    - intros [num j'] (Hnum & Hlen & Hj & Hmul & Hlast).
      destruct (decide (0 < num)%nat) as [Hpos|Hz].
      + destruct (lookup_lt_is_Some_2 ds (num - 1)) as [d Hd]; [lia|].
        assert (Hdr : 0 <= d < 10) by (destruct Hds as (Hf & _); exact (Forall_lookup_1 _ _ _ _ Hf Hd)).
        apply wp_bind. eapply wp_get; [unfold digit_text; rewrite list_lookup_fmap, Hd; reflexivity|].
        rewrite digit_char_lt10 by lia. apply wp_ok.
        assert (Htake : take num ds = take (num - 1) ds ++ [d]).
        { replace num with (S (num - 1)) at 1 by lia. by apply take_S_r. }
        rewrite Htake, number_snoc in Hmul.
        destruct (decide (48 + d = 48)) as [H48|H48].
        * split; [|lia]. split_and!; try lia.
          -- rewrite Hmul. replace d with 0 by lia. replace (j' + 1 - j) with (Z.succ (j' - j)) by lia.
             rewrite Z.pow_succ_r by lia. ring.
          -- intros Hm10. exfalso. apply Hm10. rewrite Hmul. replace d with 0 by lia.
             rewrite Z.add_0_r, <- Z.mul_assoc, (Z.mul_comm 10), Z.mul_assoc. apply Z.mod_mul. lia.
        * exists (take num ds), (FormatSpec.number 10 (take num ds)). rewrite <- digit_text_take. split_and!; try done.
          -- by apply (digits_of_take m).
          -- rewrite Htake, number_snoc, Z.add_comm, Z.mod_add, Z.mod_small by lia. lia.
          -- rewrite take_length. lia.
          -- by rewrite Htake, number_snoc.
          -- intros Hm10. specialize (Hlast Hm10). subst num. rewrite firstn_all. split; [done|lia].
      + exfalso. assert (num = 0%nat) as -> by lia. rewrite take_0 in Hmul. change (FormatSpec.number 10 []) with 0 in Hmul. lia. }
  destruct Hw as ([buf j'] & Hrun & ds' & m' & -> & H). exists ds', m', j'. by split.
Qed.
