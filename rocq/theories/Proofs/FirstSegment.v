(** Rounding a fraction, and the first segment of the digits of a double. *)
From Coq Require Import QArith Qpower Qabs Lqa.
From Verif Require Import Base.Cpp Model.FmtInt Model.Dragonbox Model.FloatLayout Model.Bigint Model.FloatDigits Spec.FloatSpec Spec.FloatRound
  Proofs.FloatSpecProofs Proofs.DragonboxArith Proofs.DragonboxTables Proofs.DragonboxProofs Proofs.DigitsTables
  Proofs.SegmentProofs.
Set Default Proof Using "Type".
Local Open Scope Z_scope.

(** [a / b], rounded to nearest, to even. *)
Definition rounds_up (a b : Z) : bool := (b <? 2 * (a mod b)) || ((2 * (a mod b) =? b) && Z.odd (a / b)).
Definition rne (a b : Z) : Z := a / b + Z.b2z (rounds_up a b).

Lemma Qabs_scaled x (m b d : Z) : 0 < b -> (x * inject_Z b == inject_Z d)%Q ->
  (Qabs (x - inject_Z m) * inject_Z b == inject_Z (Z.abs (d - m * b)))%Q.
Proof.
  intros Hb Hx.
  assert (Hbq : (inject_Z b == Qabs (inject_Z b))%Q).
  { rewrite Qabs_pos; [reflexivity|]. change 0%Q with (inject_Z 0). rewrite <- Zle_Qle. lia. }
  rewrite Hbq, <- Qabs_Qmult.
  assert (He : ((x - inject_Z m) * inject_Z b == inject_Z (d - m * b))%Q).
  { unfold Z.sub. rewrite inject_Z_plus, inject_Z_opp, inject_Z_mult. rewrite <- Hx. ring. }
  rewrite He. reflexivity.
Qed.

Lemma nearest_even_Z x a b m : 0 < b -> (x * inject_Z b == inject_Z a)%Q ->
  nearest_even x m <-> (2 * Z.abs (a - m * b) <= b /\ (2 * Z.abs (a - m * b) = b -> Z.Even m)).
Proof.
  intros Hb Hx. pose proof (Qabs_scaled x m b a Hb Hx) as Ha. set (D := Z.abs (a - m * b)) in *.
  assert (Hbq : (0 < inject_Z b)%Q) by (change 0%Q with (inject_Z 0); by rewrite <- Zlt_Qlt).
  assert (Hh : ((1 # 2) * inject_Z b * inject_Z 2 == inject_Z b)%Q) by (change (inject_Z 2) with (2#1)%Q; field).
  unfold nearest_even. split; intros [H1 H2]; split.
  - assert (Hm : (Qabs (x - inject_Z m) * inject_Z b <= (1 # 2) * inject_Z b)%Q) by (apply Qmult_le_compat_r; [done|lra]).
    rewrite Ha in Hm. rewrite Zle_Qle, inject_Z_mult. rewrite <- Hh. change (inject_Z 2) with (2#1)%Q. lra.
  - intros He. apply H2. apply (Qmult_inj_r _ _ (inject_Z b)); [lra|]. rewrite Ha.
    assert (Hz : (inject_Z (2 * D) == inject_Z b)%Q) by (rewrite He; reflexivity).
    rewrite inject_Z_mult in Hz. change (inject_Z 2) with (2#1)%Q in *. lra.
  - rewrite Zle_Qle, inject_Z_mult in H1. change (inject_Z 2) with (2#1)%Q in H1.
    apply (Qmult_le_r _ _ (inject_Z b)); [done|]. rewrite Ha. lra.
  - intros He. apply H2.
    assert (Hm : (Qabs (x - inject_Z m) * inject_Z b == (1 # 2) * inject_Z b)%Q) by (by rewrite He).
    rewrite Ha in Hm. assert (Hz : (inject_Z (2 * D) == inject_Z b)%Q).
    { rewrite inject_Z_mult. change (inject_Z 2) with (2#1)%Q. lra. }
    exact (proj1 (inject_Z_injective _ _) Hz).
Qed.

Lemma rne_nearest x a b : 0 < b -> (x * inject_Z b == inject_Z a)%Q -> nearest_even x (rne a b).
Proof.
  intros Hb Hx. rewrite (nearest_even_Z x a b) by done. unfold rne, rounds_up.
  pose proof (Z.div_mod a b ltac:(lia)) as Hdm. pose proof (Z.mod_pos_bound a b Hb) as Hm.
  set (D := a / b) in *. set (r := a mod b) in *.
  destruct (Z.ltb_spec b (2 * r)) as [H|H]; cbn [orb Z.b2z].
  - split; [lia|]. intros. lia.
  - destruct (Z.eqb_spec (2 * r) b) as [He|He]; cbn [andb].
    + destruct (Z.odd D) eqn:Ho; cbn [Z.b2z].
      * split; [lia|]. intros _. apply Z.even_spec. rewrite Z.even_add, <- Z.negb_odd, Ho. done.
      * split; [lia|]. intros _. rewrite Z.add_0_r. apply Z.even_spec. rewrite <- Z.negb_odd, Ho. done.
    + cbn [Z.b2z]. split; [lia|]. lia.
Qed.

Lemma nearest_even_unique x m m' : nearest_even x m -> nearest_even x m' -> m = m'.
Proof.
  assert (Hx : (x * inject_Z (Zpos (QArith_base.Qden x)) == inject_Z (Qnum x))%Q).
  { destruct x as [n d]. unfold Qeq, Qmult, inject_Z. cbn. lia. }
  rewrite !(nearest_even_Z x (Qnum x) (Zpos (QArith_base.Qden x))) by done.
  set (a := Qnum x). set (b := Zpos (QArith_base.Qden x)). assert (Hb : 0 < b) by done. clearbody a b.
  intros [H1 H2] [H3 H4].
  destruct (Z.lt_total m m') as [Hlt|[|Hlt]]; [|done|]; exfalso.
  - assert ((m + 1) * b <= m' * b) by (apply Z.mul_le_mono_nonneg_r; lia).
    assert (2 * Z.abs (a - m * b) = b /\ 2 * Z.abs (a - m' * b) = b /\ (m + 1) * b = m' * b) as (E1 & E2 & E3) by lia.
    apply Z.mul_reg_r in E3; [|lia]. destruct (H2 E1) as [i ->], (H4 E2) as [j ->]. lia.
  - assert ((m' + 1) * b <= m * b) by (apply Z.mul_le_mono_nonneg_r; lia).
    assert (2 * Z.abs (a - m * b) = b /\ 2 * Z.abs (a - m' * b) = b /\ (m' + 1) * b = m * b) as (E1 & E2 & E3) by lia.
    apply Z.mul_reg_r in E3; [|lia]. destruct (H2 E1) as [i ->], (H4 E2) as [j ->]. lia.
Qed.

(** Dropping decimals first does not matter, if it is known whether there were any. *)
Lemma rne_segment N X j t more : 0 <= N -> 0 < X -> 1 <= j -> 0 <= t -> more = negb (N mod X =? 0) ->
  let S := N / X * 10 ^ t in let T := 10 ^ (j + t) in
  S / T + Z.b2z (goes_up (S / T) (S mod T) T more) = rne N (X * 10 ^ j).
Proof.
  intros HN HX Hj Ht -> S T. unfold rne, rounds_up. set (F := N / X) in *. set (r := N mod X).
  pose proof (Z.div_mod N X ltac:(lia)) as Hdm. pose proof (Z.mod_pos_bound N X HX) as Hr. fold F r in Hdm, Hr.
  assert (Hp : 0 < 10 ^ t) by (apply Z.pow_pos_nonneg; lia). assert (Hq : 0 < 10 ^ j) by (apply Z.pow_pos_nonneg; lia).
  assert (HT : T = 10 ^ j * 10 ^ t) by (unfold T; by rewrite Z.pow_add_r by lia).
  assert (HSd : S / T = F / 10 ^ j) by (unfold S; rewrite HT; apply Z.div_mul_cancel_r; lia).
  assert (HSm : S mod T = F mod 10 ^ j * 10 ^ t) by (unfold S; rewrite HT; apply Z.mul_mod_distr_r; lia).
  assert (HNd : N / (X * 10 ^ j) = F / 10 ^ j) by (by rewrite <- Z.div_div by lia).
  assert (HNm : N mod (X * 10 ^ j) = F mod 10 ^ j * X + r).
  { rewrite Z.rem_mul_r by lia. fold r F. lia. }
  rewrite HSd, HSm, HNd, HNm. set (D := F / 10 ^ j). set (R := F mod 10 ^ j) in *.
  pose proof (Z.mod_pos_bound F (10 ^ j) Hq) as HR. fold R in HR.
  f_equal. f_equal. unfold goes_up.
  assert (Hev : exists h, 10 ^ j = 2 * h).
  { exists (5 * 10 ^ (j - 1)). replace j with (1 + (j - 1)) at 1 by lia. rewrite Z.pow_add_r by lia. lia. }
  destruct Hev as [h Hh]. rewrite HT.
  apply Bool.eq_iff_eq_true. rewrite bool_decide_eq_true, (orb_true_iff (_ <? _)), (andb_true_iff (_ =? _)), Z.ltb_lt, (Z.eqb_eq (2 * _)).
  assert (H1 : 10 ^ j * 10 ^ t < 2 * (R * 10 ^ t) <-> h < R).
  { rewrite Hh. replace (2 * (R * 10 ^ t)) with (2 * R * 10 ^ t) by ring. rewrite <- Z.mul_lt_mono_pos_r by done. lia. }
  assert (H2 : 2 * (R * 10 ^ t) = 10 ^ j * 10 ^ t <-> R = h).
  { rewrite Hh. replace (2 * (R * 10 ^ t)) with (2 * R * 10 ^ t) by ring. rewrite Z.mul_cancel_r by lia. lia. }
  rewrite H1, H2, Hh. destruct (Z.lt_total R h) as [Hl|[->|Hg]].
  - assert ((R + 1) * X <= h * X) by (apply Z.mul_le_mono_nonneg_r; lia). split; [lia|]. intros [?|[? _]]; lia.
  - destruct (Z.eqb_spec r 0) as [Hz|Hz]; cbn [negb].
    + rewrite orb_false_r, Hz. split; [intros [?|[_ ?]]; [lia|right; split; [lia|done]]|].
      intros [?|[_ ?]]; [lia|right; split; [lia|done]].
    + rewrite orb_true_r. split; [intros _; left; lia|]. intros _. right. done.
  - assert ((h + 1) * X <= R * X) by (apply Z.mul_le_mono_nonneg_r; lia). split; [intros _; left; lia|]. intros _. by left.
Qed.

(** ** The first segment *)
Lemma first_segment_ok br : finite_bits binary64 br ->
  exists N X t exp, let more := negb (N mod X =? 0) in
    get_first_segment br = Ok (N / X * 10 ^ t, more, 19 - t, exp) /\
    0 <= N /\ 0 < X /\ (t = 0 \/ t = 1) /\ -341 <= exp <= 292 /\ 10 ^ 18 <= N / X * 10 ^ t < 10 ^ 19 /\
    (value (of_bits binary64 br) * p10 (- exp) * inject_Z X == inject_Z N)%Q.
Proof.
  intros Hb. pose proof (of_bits_pos binary64 br ltac:(done) Hb) as Hpos.
  unfold finite_bits in Hb. cbn [binary64 prec emin emax] in Hb. change (971 - -1074 + 2) with 2047 in Hb.
  assert (Hsteps : exists sg e, 2 ^ 52 <= sg < 2 ^ 53 /\ -1126 <= e <= 971 /\
    (value (of_bits binary64 br) == inject_Z sg * p2 e)%Q /\
    get_first_segment br =
      let* lg := floor_log10_pow2 e in
      let k := 2 - lg in
      let exp := - k in
      let* l := floor_log2_pow10 k in
      let beta := e + l in
      let* cache := double_cached_power k in
      let* s := shl 64 (2 * sg) beta in
      let r := umul192_upper128 s cache in
      let first_segment := fst r in
      let has_more_segments := negb (snd r =? 0) in
      Ok (if decide (1000000000000000000 <= first_segment) then (first_segment, has_more_segments, 19, exp)
          else (wrap 64 (first_segment * 10), has_more_segments, 18, exp))).
  { unfold get_first_segment. cbv zeta. cbn [float_info_double num_significand_bits min_exponent kappa].
    change (exponent_bias float_info_double) with 1023.
    set (fr := br mod 2 ^ 52). set (bi := br / 2 ^ 52).
    assert (Hmask : Z.shiftr (Z.land br (exponent_mask float_info_double)) 52 = bi).
    { change (exponent_mask float_info_double) with (Z.shiftl (Z.ones 11) 52).
      rewrite Z.shiftr_land, Z.shiftr_shiftl_l, Z.sub_diag, Z.shiftl_0_r by done.
      rewrite Z.land_ones, Z.shiftr_div_pow2 by done. fold bi. apply Z.mod_small.
      split; [apply Z.div_pos; lia|]. apply Z.div_lt_upper_bound; lia. }
    assert (Hfr : Z.land br (Z.shiftl 1 52 - 1) = fr) by (apply (land_low br 52); lia).
    rewrite Hmask, Hfr.
    pose proof (Z.mod_pos_bound br (2 ^ 52) ltac:(lia)) as Hfrb. fold fr in Hfrb.
    pose proof (Z.div_mod br (2 ^ 52) ltac:(lia)) as Hdm. fold fr bi in Hdm.
    assert (Hbi : 0 <= bi < 2047).
    { split; [apply Z.div_pos; lia|]. apply Z.div_lt_upper_bound; lia. }
    assert (Hof : of_bits binary64 br = if bi =? 0 then Number fr (-1074) else Number (2 ^ 52 + fr) (-1074 + (bi - 1))) by done.
    rewrite Hof in *. clear Hof Hmask Hfr.
    destruct (Z.eqb_spec bi 0) as [Hz|Hz]; cbn [significand] in Hpos.
    - rewrite decide_False by lia. destruct (Z.eqb_spec fr 0) as [|_]; [lia|]. cbn [negb asserted].
      unfold clz. set (lg := Z.log2 fr).
      assert (Hlg : 2 ^ lg <= fr < 2 ^ (lg + 1)) by (apply Z.log2_spec; lia).
      assert (Hlg52 : 0 <= lg < 52).
      { split; [apply Z.log2_nonneg|]. apply Z.log2_lt_pow2; lia. }
      destruct (Z.leb_spec (64 - 52) (64 - 1 - lg)) as [_|]; [|lia]. cbn [asserted].
      rewrite shl_ok by lia. cbn [bind].
      replace (64 - 1 - lg - (64 - 52 - 2)) with (53 - lg) by lia.
      assert (Hp : 2 ^ (53 - lg) = 2 * 2 ^ (52 - lg)) by (rewrite <- Z.pow_succ_r by lia; f_equal; lia).
      assert (H52 : 2 ^ lg * 2 ^ (52 - lg) = 2 ^ 52) by (rewrite <- Z.pow_add_r by lia; f_equal; lia).
      assert (Hpp : 0 < 2 ^ (52 - lg)) by (apply pow2_pos; lia).
      rewrite Z.pow_add_r in Hlg by lia. change (2 ^ 1) with 2 in Hlg.
      assert (Hb1 : 2 ^ 52 <= fr * 2 ^ (52 - lg) < 2 ^ 53).
      { rewrite <- H52. split; [apply Z.mul_le_mono_nonneg_r; lia|].
        apply Z.lt_le_trans with (2 ^ lg * 2 * 2 ^ (52 - lg)); [apply Z.mul_lt_mono_pos_r; lia|]. lia. }
      exists (fr * 2 ^ (52 - lg)), (-1074 - (52 - lg)). split_and!; try lia.
      + unfold value. cbn [significand exponent]. rewrite inject_Z_mult, <- (p2_Z (52 - lg)) by lia.
        rewrite <- Qmult_assoc, <- p2_add. replace (52 - lg + (-1074 - (52 - lg))) with (-1074) by lia. reflexivity.
      + rewrite wrap_id by (rewrite Hp; lia).
        replace (-1021 - 52 - (53 - lg)) with (-1074 - (52 - lg)) by lia.
        replace (fr * 2 ^ (53 - lg)) with (2 * (fr * 2 ^ (52 - lg))) by (rewrite Hp; ring). reflexivity.
    - rewrite decide_True by done. cbn [bind].
      exists (2 ^ 52 + fr), (-1074 + (bi - 1)). split_and!; try lia.
      + reflexivity.
      + change (Z.shiftl 1 52) with (2 ^ 52). rewrite lor_high, Z.shiftl_mul_pow2 by lia. change (2 ^ 1) with 2.
        rewrite wrap_id by lia. replace (bi - (1023 + 52)) with (-1074 + (bi - 1)) by lia.
        rewrite (Z.mul_comm (2 ^ 52 + fr) 2). reflexivity. }
  destruct Hsteps as (sg & e & Hsg & He & Hval & ->).
  destruct (digits_good e He) as (lg & l & ca & Hrest). cbv zeta in Hrest.
  destruct Hrest as (Hlg & Hca & Hl & Hbeta & Hkb & Hcok & Hlow & Hhigh & Hfl & Hint).
  rewrite Hlg. cbn [bind]. rewrite Hl. cbn [bind]. rewrite Hca. cbn [bind].
  set (k := 2 - lg) in *. set (beta := e + l) in *. set (c := u128_val ca) in *.
  set (xn := 2 * power_num 64 k l (5 ^ Z.abs k)) in *. set (xd := power_den 64 k l (5 ^ Z.abs k) * 2 ^ (128 - beta)) in *.
  assert (Hxn : 0 < xn) by (pose proof (power_num_pos 64 k l); unfold xn; lia).
  assert (Hxd : 0 < xd) by (apply Z.mul_pos_pos; [apply power_den_pos|apply pow2_pos; lia]).
  assert (H2b : 2 ^ beta <= 2 ^ 10) by (apply Z.pow_le_mono_r; lia).
  assert (H2b0 : 0 < 2 ^ beta) by (apply pow2_pos; lia).
  rewrite shl_ok by lia. cbn [bind]. rewrite wrap_id.
  2:{ split; [apply Z.mul_nonneg_nonneg; lia|]. apply Z.lt_le_trans with (2 ^ 54 * 2 ^ beta).
      - apply Z.mul_lt_mono_pos_r; lia.
      - change (2 ^ 64) with (2 ^ 54 * 2 ^ 10). apply Z.mul_le_mono_nonneg_l; lia. }
  rewrite umul192_upper128_ok; [|split; [apply Z.mul_nonneg_nonneg; lia|]|done].
  2:{ apply Z.lt_le_trans with (2 ^ 54 * 2 ^ beta).
      - apply Z.mul_lt_mono_pos_r; lia.
      - change (2 ^ 64) with (2 ^ 54 * 2 ^ 10). apply Z.mul_le_mono_nonneg_l; lia. }
  cbn [u128_of fst snd]. fold c. set (P := 2 * sg * 2 ^ beta * c).
  set (B := 2 ^ (128 - beta)) in *.
  assert (HB : 0 < B) by (apply pow2_pos; lia).
  assert (HBb : B * 2 ^ beta = 2 ^ 128) by (unfold B; rewrite <- Z.pow_add_r by lia; f_equal; lia).
  assert (HP : P = sg * (2 * c) * 2 ^ beta) by (unfold P; ring).
  assert (Hhi : P / 2 ^ 64 / 2 ^ 64 = sg * xn / xd).
  { rewrite pow2_div_div by lia. change (64 + 64) with 128. rewrite HP, <- HBb, Z.div_mul_cancel_r by lia.
    apply Hfl. lia. }
  rewrite Hhi.
  assert (Hlo : ((P / 2 ^ 64) mod 2 ^ 64 =? 0) = ((sg * xn) mod xd =? 0)).
  { apply Bool.eq_iff_eq_true. rewrite !Z.eqb_eq.
    transitivity ((sg * (2 * c)) mod B * 2 ^ 64 < B).
    - change ((P / 2 ^ 64) mod 2 ^ 64) with ((P / 2 ^ 64) mod 2 ^ (128 - 64)). rewrite <- (pow2_div P 64 128) by lia. rewrite HP, <- HBb, Z.mul_mod_distr_r by lia.
      pose proof (Z.mod_pos_bound (sg * (2 * c)) B HB) as Hm. set (m := (sg * (2 * c)) mod B) in *.
      assert (Hiff : m * 2 ^ 64 < B <-> m * 2 ^ beta < 2 ^ 64).
      { rewrite (Z.mul_lt_mono_pos_r (2 ^ beta) (m * 2 ^ 64)) by done. rewrite HBb.
        replace (m * 2 ^ 64 * 2 ^ beta) with (m * 2 ^ beta * 2 ^ 64) by ring. change (2 ^ 128) with (2 ^ 64 * 2 ^ 64).
        by rewrite <- Z.mul_lt_mono_pos_r. }
      rewrite Hiff. split.
      + intros H0. apply Z.div_small_iff in H0; lia.
      + intros H0. apply Z.div_small. lia.
    - rewrite Hint by lia. symmetry. apply Z.mod_divide. lia. }
  rewrite Hlo.
  assert (HF1 : 10 ^ 17 <= sg * xn / xd).
  { etransitivity; [exact Hlow|]. apply Z.div_le_mono; [done|]. apply Z.mul_le_mono_nonneg_r; lia. }
  assert (HF2 : sg * xn / xd < 10 ^ 19).
  { eapply Z.le_lt_trans; [|exact Hhigh]. apply Z.div_le_mono; [done|]. apply Z.mul_le_mono_nonneg_r; lia. }
  assert (Hscale : (value (of_bits binary64 br) * p10 (- - k) * inject_Z xd == inject_Z (sg * xn))%Q).
  { rewrite Hval, Z.opp_involutive. apply (good_scale e l k sg). fold beta. lia. }
  assert (Hgen : forall t, t = 0 \/ t = 1 -> 10 ^ 18 <= sg * xn / xd * 10 ^ t < 10 ^ 19 ->
    exists N X t' exp, let more := negb (N mod X =? 0) in
    Ok (sg * xn / xd * 10 ^ t, negb ((sg * xn) mod xd =? 0), 19 - t, - k) = Ok (N / X * 10 ^ t', more, 19 - t', exp) /\
    0 <= N /\ 0 < X /\ (t' = 0 \/ t' = 1) /\ -341 <= exp <= 292 /\ 10 ^ 18 <= N / X * 10 ^ t' < 10 ^ 19 /\
    (value (of_bits binary64 br) * p10 (- exp) * inject_Z X == inject_Z N)%Q).
  { intros t Ht Hr. exists (sg * xn), xd, t, (- k). cbv zeta. split_and!; try done; try lia. }
  set (F := sg * xn / xd) in *.
  destruct (decide (1000000000000000000 <= F)) as [Hge|Hlt].
  - destruct (Hgen 0) as (N & X & t' & exp & Hg); [by left|lia|]. exists N, X, t', exp. cbv zeta in *.
    change (10 ^ 0) with 1 in Hg. rewrite Z.mul_1_r in Hg. exact Hg.
  - destruct (Hgen 1) as (N & X & t' & exp & Hg); [by right|lia|]. exists N, X, t', exp. cbv zeta in *.
    rewrite wrap_id by lia. change (10 ^ 1) with 10 in Hg. exact Hg.
Qed.
