(** The text of floating-point numbers with a precision. *)
From Coq Require Import QArith Qpower Qabs Lqa.
From Verif Require Import Base.Cpp Model.Numeric Model.FmtInt Model.Format Model.Dragonbox Model.FloatLayout Model.Bigint Model.FloatDigits
  Spec.FormatSpec Spec.FieldSpec Spec.FloatSpec Spec.FloatText Spec.FloatRound Spec.FloatField
  Proofs.FmtIntProofs Proofs.FormatWrite Proofs.FormatValue Proofs.FloatSpecProofs Proofs.DragonboxArith Proofs.DragonboxProofs Proofs.SegmentProofs
  Proofs.FirstSegment Proofs.DragonProofs Proofs.FloatLayoutProofs Proofs.FloatTextProofs Proofs.FloatDigitsProofs.
Set Default Proof Using "Type".
Ltac Zify.zify_post_hook ::= idtac.
Local Open Scope Z_scope.
Local Notation decimal := FloatSpec.decimal.

(** ** Decimals *)
Lemma fixed_decimals point p M ds : digits_of 10 M ds -> 0 <= p -> decimals_text point p M (fixed_text point 0 ds (- p)).
Proof.
  intros Hds Hp. pose proof Hds as (Hf & Hn & Hne & _). unfold fixed_text, decimals_text.
  set (len := Z.of_nat (length ds)). assert (Hlen : 0 < len) by (unfold len; destruct ds; [done|cbn; lia]).
  destruct (decide (0 <= - p)) as [Hz|Hz].
  - assert (p = 0) as -> by lia. exists ds, []. change (10 ^ 0) with 1. rewrite Z.div_1_r, Z.mod_1_r.
    split; [by apply numeral_digits|]. split; [constructor|]. split; [done|]. split; [done|].
    change (zeros (- 0)) with (@nil Z). change (zeros 0) with (@nil Z). f_equal. cbn [app digit_text fmap list_fmap]. rewrite app_nil_r.
    destruct point; [rewrite decide_True by (by right); done|]. rewrite decide_False by (intros [|]; [lia|done]). done.
  - rewrite (decide_True (P := 0 < p \/ _)) by (left; lia).
    destruct (decide (0 < len + - p)) as [Hl|Hl].
    + set (i := Z.to_nat (len + - p)). assert (Hi : (0 < i <= length ds)%nat) by (unfold i, len in *; lia).
      exists (take i ds), (drop i ds).
      assert (Hdl : Z.of_nat (length (drop i ds)) = p) by (rewrite drop_length; unfold i, len in *; lia).
      assert (Hdd : all_digits (drop i ds)) by (by apply Forall_drop).
      pose proof (number_bound 10 (drop i ds) ltac:(lia) Hdd) as Hb. rewrite Hdl in Hb.
      assert (HM : M = FormatSpec.number 10 (take i ds) * 10 ^ p + FormatSpec.number 10 (drop i ds)).
      { rewrite <- Hn, <- (take_drop i ds) at 1. by rewrite number_app, Hdl. }
      assert (Hdiv : M / 10 ^ p = FormatSpec.number 10 (take i ds)).
      { symmetry. apply (Z.div_unique_pos _ _ _ (FormatSpec.number 10 (drop i ds))); [lia|]. rewrite HM. ring. }
      split; [rewrite Hdiv; apply numeral_digits; by apply (digits_of_take M)|].
      split; [done|]. split; [done|]. split.
      * apply (Z.mod_unique_pos _ _ (FormatSpec.number 10 (take i ds))); [lia|]. rewrite HM. ring.
      * change (zeros 0) with (@nil Z). by rewrite app_nil_r.
    + exists [0], (replicate (Z.to_nat (- (len + - p))) 0 ++ ds).
      pose proof (number_bound 10 ds ltac:(lia) Hf) as Hb. rewrite Hn in Hb. fold len in Hb.
      assert (Hpw : 10 ^ len <= 10 ^ p) by (apply Z.pow_le_mono_r; lia).
      rewrite Z.div_small, Z.mod_small by lia. split.
      { apply numeral_digits. split_and!; [repeat constructor; lia|done|done|done]. }
      split; [apply Forall_app; split; [apply replicate_all_digits|done]|].
      split; [rewrite app_length, replicate_length; unfold len in *; lia|].
      split; [by rewrite numb_zeros_before|].
      rewrite zeros_digits, digit_text_app, app_nil_r. done.
Qed.
Lemma decimals_reads point p m s : 0 <= m -> decimals_text point p m s -> number_text s m (- p).
Proof.
  intros Hm (ip & fp & Hip & Hfp & Hlen & Hval & ->). destruct Hip as (ip' & Heq & Hf & Hn & Hne & _).
  assert (Hp : 0 <= p) by lia. assert (0 < 10 ^ p) by (apply Z.pow_pos_nonneg; lia).
  change ((digit_char false <$> ip')) with (digit_text ip') in Heq.
  assert (digit_text ip = digit_text ip') as -> by done.
  destruct (decide (0 < p \/ point = true)) as [Hpt|Hpt].
  - constructor. pose proof (Pointed ip' fp Hne Hf Hfp) as H1. rewrite number_app, Hn, Hlen, Hval in H1.
    rewrite Z.mul_comm, <- Z.div_mod in H1 by lia. done.
  - assert (p = 0) as -> by lia. destruct fp; [|cbn in Hlen; lia]. rewrite Z.pow_0_r, Z.div_1_r in Hn.
    constructor. cbn [app digit_text fmap list_fmap]. rewrite app_nil_r. pose proof (Whole ip' Hne Hf) as H1. by rewrite Hn in H1.
Qed.
Lemma zero_decimals point p : 0 <= p ->
  decimals_text point p 0 ([48] ++ (if decide (0 < p \/ point = true) then [46] else []) ++ zeros p).
Proof.
  intros Hp. exists [0], (replicate (Z.to_nat p) 0). rewrite Z.div_0_l, Z.mod_0_l by (apply Z.pow_nonzero; lia).
  split; [apply numeral_digits; split_and!; [repeat constructor; lia|done|done|done]|].
  split; [apply replicate_all_digits|]. split; [rewrite replicate_length; lia|]. split; [apply numb_zeros|].
  by rewrite zeros_digits.
Qed.

(** ** 767 digits are enough *)
Lemma p10_le a b : a <= b -> (p10 a <= p10 b)%Q.
Proof.
  intros H. assert (H1 : (1 <= p10 (b - a))%Q).
  { rewrite (p10_Z (b - a)) by lia. change 1%Q with (inject_Z 1). rewrite <- Zle_Qle.
    pose proof (Z.pow_pos_nonneg 10 (b - a) ltac:(lia) ltac:(lia)). lia. }
  replace b with (a + (b - a)) by lia. rewrite p10_add. pose proof (p10_pos a) as Hp.
  rewrite <- (Qmult_1_r (p10 a)) at 1. rewrite (Qmult_comm (p10 a) 1), (Qmult_comm (p10 a)). by apply Qmult_le_compat_r; [|apply Qlt_le_weak].
Qed.
Lemma five_bound : 2 ^ 53 * 5 ^ 1074 <= 10 ^ 767.
Proof. vm_compute. done. Qed.
Lemma exact_digits f e x : 0 < f < 2 ^ 53 -> -1074 <= e -> x <= 320 -> (p10 x <= inject_Z f * p2 e)%Q ->
  exists N, (inject_Z f * p2 e * p10 (766 - x) == inject_Z N)%Q.
Proof.
  intros Hf He Hx Hlo. destruct (decide (0 <= e)) as [Hpos|Hneg].
  { exists (f * 2 ^ e * 10 ^ (766 - x)). rewrite (p2_Z e), (p10_Z (766 - x)), <- !inject_Z_mult by lia. done. }
  set (a := - e). replace e with (- a) in * by lia. assert (Ha : 0 < a <= 1074) by lia. clearbody a. clear e He Hneg.
  assert (Hinv : (p2 (- a) * p2 a == 1)%Q) by (rewrite <- p2_add; by replace (- a + a) with 0 by lia).
  destruct (decide (a <= 766 - x)) as [Hle|Hgt].
  - exists (f * 5 ^ a * 10 ^ (766 - x - a)).
    replace (766 - x) with (a + (766 - x - a)) at 1 by lia. rewrite p10_add, (p10_Z a), (p10_Z (766 - x - a)) by lia.
    replace 10 with (2 * 5) at 1 by done. rewrite Z.pow_mul_l, !inject_Z_mult, <- (p2_Z a) by lia.
    transitivity (inject_Z f * (p2 (- a) * p2 a) * inject_Z (5 ^ a) * inject_Z (10 ^ (766 - x - a)))%Q; [ring|]. rewrite Hinv. ring.
  - exfalso.
    assert (H5 : 5 ^ a <= 5 ^ 1074) by (apply Z.pow_le_mono_r; lia). pose proof five_bound as Hb.
    assert (Hp5 : 0 < 5 ^ a) by (apply Z.pow_pos_nonneg; lia).
    assert (Hlt : f * 5 ^ a < 10 ^ 767).
    { eapply Z.lt_le_trans; [|exact Hb]. eapply Z.lt_le_trans; [apply Z.mul_lt_mono_pos_r; [done|apply Hf]|].
      apply Z.mul_le_mono_nonneg_l; lia. }
    apply (Z.lt_irrefl (10 ^ 767)). eapply Z.le_lt_trans; [|exact Hlt].
    rewrite Zle_Qle, inject_Z_mult, <- (p10_Z 767) by lia.
    assert (Hx' : (p10 (767 - a) <= inject_Z f * p2 (- a))%Q).
    { eapply Qle_trans; [|exact Hlo]. apply p10_le. lia. }
    assert (H10 : (p10 a == p2 a * inject_Z (5 ^ a))%Q).
    { rewrite (p10_Z a), (p2_Z a), <- inject_Z_mult, <- Z.pow_mul_l by lia. done. }
    replace 767 with (767 - a + a) at 1 by lia. rewrite p10_add, H10.
    assert (Hm : (p10 (767 - a) * (p2 a * inject_Z (5 ^ a)) <= inject_Z f * p2 (- a) * (p2 a * inject_Z (5 ^ a)))%Q).
    { apply Qmult_le_compat_r; [done|]. rewrite <- H10. apply Qlt_le_weak, p10_pos. }
    eapply Qle_trans; [exact Hm|].
    assert (Heq : (inject_Z f * p2 (- a) * (p2 a * inject_Z (5 ^ a)) == inject_Z f * inject_Z (5 ^ a))%Q).
    { transitivity (inject_Z f * (p2 (- a) * p2 a) * inject_Z (5 ^ a))%Q; [ring|]. rewrite Hinv. ring. }
    rewrite Heq. apply Qle_refl.
Qed.
Lemma nearest_even_int a : nearest_even (inject_Z a) a.
Proof.
  split.
  - setoid_replace (inject_Z a - inject_Z a)%Q with 0%Q by ring. done.
  - intros H. exfalso. setoid_replace (inject_Z a - inject_Z a)%Q with 0%Q in H by ring. discriminate H.
Qed.
(** So rounding to 767 digits changes nothing, and further digits are zeros. *)
Lemma more_digits v x N M P : (v * p10 (766 - x) == inject_Z N)%Q -> nearest_even (v * p10 (766 - x)) M -> 767 <= P ->
  (decimal M (x - 766) == v)%Q /\ nearest_even (v * p10 (P - 1 - x)) (M * 10 ^ (P - 767)).
Proof.
  intros HN HM HP. assert (M = N) as ->.
  { apply (nearest_even_unique (inject_Z N)); [by eapply nearest_even_proper|]. apply nearest_even_int. }
  split.
  - unfold decimal. rewrite <- HN. rewrite <- Qmult_assoc, <- p10_add. replace (766 - x + (x - 766)) with 0 by lia. apply Qmult_1_r.
  - eapply nearest_even_proper; [|apply nearest_even_int]. rewrite inject_Z_mult, <- HN, <- (p10_Z (P - 767)) by lia.
    apply p10_scale. lia.
Qed.

(** ** The digits of floats and doubles *)
Definition kind_of (I : float_info) (F : format) : Prop :=
  I = float_info_double /\ F = binary64 \/ I = float_info_float /\ F = binary32.
Definition as_double (I : float_info) (m : Z) : Z := if carrier_bits I =? 32 then widen m else m.

Lemma digits_cases I F m fs P : kind_of I F -> finite_bits F m -> fs_binary32 fs = (carrier_bits I =? 32) ->
  let v := value (of_bits F m) in
  let fixed := bool_decide (fs_format fs = Fixed) in
  0 <= P ->
  exists x, -330 <= x <= 320 /\ (p10 x <= v)%Q /\ (v < p10 (x + 1))%Q /\ (exists N, v * p10 (766 - x) == inject_Z N)%Q /\
    (fixed = true -> 0 <= x -> max_int < P + x + 1 -> float_core (as_double I m) m P fs = Throw) /\
    let Q := if fixed then P + x + 1 else P in
    (fixed = true -> 0 <= x -> P + x + 1 <= max_int) ->
    (0 < Q -> exists M, let K := Z.min Q 767 in nearest_even (v * p10 (K - 1 - x)) M /\ 10 ^ (K - 1) <= M <= 10 ^ K /\
      float_core (as_double I m) m P fs = Ok (rounded_chars fixed K M (x + 1 - K))) /\
    (Q = 0 -> exists M, nearest_even (v * p10 (- 1 - x)) M /\ (M = 0 \/ M = 1) /\
      float_core (as_double I m) m P fs = Ok ([48 + M], x + 1)) /\
    (Q < 0 -> float_core (as_double I m) m P fs = Ok ([], x + 1)).
Proof.
  intros HIF Hfin Hbin v fixed HP.
  assert (Hcore : exists f e closer,
    (if fs_binary32 fs then fp_assign float_info_float m else fp_assign float_info_double (as_double I m)) = (f, e, closer) /\
    0 < f < 2 ^ 53 /\ -1074 <= e <= 2000 /\ finite_bits binary64 (as_double I m) /\
    (value (of_bits binary64 (as_double I m)) == inject_Z f * p2 e)%Q /\ (value (of_bits binary64 (as_double I m)) == v)%Q).
  { destruct HIF as [[-> ->]|[-> ->]]; rewrite Hbin; unfold as_double.
    - change (carrier_bits float_info_double =? 32) with false.
      destruct (fp_assign_ok float_info_double binary64 m) as (f & e & closer & H1 & H2 & H3 & H4 & _); try done.
      exists f, e, closer. cbn [binary64 prec emin emax] in *. split_and!; try done; lia.
    - change (carrier_bits float_info_float =? 32) with true.
      destruct (fp_assign_ok float_info_float binary32 m) as (f & e & closer & H1 & H2 & H3 & H4 & _); try done.
      destruct (widen_ok m Hfin) as [H5 H6].
      exists f, e, closer. cbn [binary32 prec emin emax] in *. split_and!; try done; try lia. by rewrite H6. }
  destruct Hcore as (f & e & closer & Hfp & Hf & He & Hfd & Hv & Hvv).
  destruct (core_cases (as_double I m) m P fs f e closer Hfd Hfp Hf ltac:(lia) Hv HP) as (x & Hx & Hlo & Hhi & H0 & Hrest).
  exists x. split; [done|]. split; [by rewrite <- Hvv|]. split; [by rewrite <- Hvv|]. split.
  { destruct (exact_digits f e x Hf ltac:(lia) ltac:(lia)) as [N HN]; [by rewrite <- Hv|]. exists N. by rewrite <- Hvv, Hv. }
  split; [exact H0|]. intros Q Hmax. destruct (Hrest Hmax) as (H1 & H2 & H3).
  split; [|split].
  - intros HQ. destruct (H1 HQ) as (M & HM & HMr & Hrun). exists M. split; [|by split].
    eapply nearest_even_proper; [|exact HM]. by rewrite Hvv.
  - intros HQ. destruct (H2 HQ) as (M & HM & HMr & Hrun). exists M. split; [|by split].
    eapply nearest_even_proper; [|exact HM]. by rewrite Hvv.
  - exact H3.
Qed.

Lemma digits_core I F m fs P : kind_of I F -> finite_bits F m -> fs_binary32 fs = (carrier_bits I =? 32) ->
  let v := value (of_bits F m) in
  let fixed := bool_decide (fs_format fs = Fixed) in
  0 <= P -> (fixed = true -> P <= max_int - 400) ->
  exists x, -330 <= x <= 320 /\ (p10 x <= v)%Q /\ (v < p10 (x + 1))%Q /\ (exists N, v * p10 (766 - x) == inject_Z N)%Q /\
    let Q := if fixed then P + x + 1 else P in
    (0 < Q -> exists M, let K := Z.min Q 767 in nearest_even (v * p10 (K - 1 - x)) M /\ 10 ^ (K - 1) <= M <= 10 ^ K /\
      float_core (as_double I m) m P fs = Ok (rounded_chars fixed K M (x + 1 - K))) /\
    (Q = 0 -> exists M, nearest_even (v * p10 (- 1 - x)) M /\ (M = 0 \/ M = 1) /\
      float_core (as_double I m) m P fs = Ok ([48 + M], x + 1)) /\
    (Q < 0 -> float_core (as_double I m) m P fs = Ok ([], x + 1)).
Proof.
  intros HIF Hfin Hbin v fixed HP Hmax. destruct (digits_cases I F m fs P HIF Hfin Hbin HP) as (x & Hx & Hlo & Hhi & HN & _ & Hrest).
  exists x. split_and!; try done; try lia; apply Hrest; intros Hfx; specialize (Hmax Hfx); lia.
Qed.

Lemma format_float_core br single P fs : br <> 0 -> 0 <= P ->
  format_float br single P fs =
  let* (buf, exp) := float_core br single P fs in
  if negb (bool_decide (fs_format fs = Fixed)) && negb (fs_showpoint fs) then remove_zeros buf exp else Ok (buf, exp).
Proof. intros Hbr HP. unfold format_float. rewrite decide_False by done. rewrite decide_False by lia. done. Qed.

Lemma as_double_zero I F m : kind_of I F -> 0 <= m < (emax F - emin F + 2) * 2 ^ (prec F - 1) ->
  (m = 0 /\ as_double I m = 0) \/ (finite_bits F m /\ as_double I m <> 0).
Proof.
  intros HIF Hm. destruct (decide (m = 0)) as [->|Hne].
  - left. split; [done|]. destruct HIF as [[-> ->]|[-> ->]]; done.
  - right. assert (Hfin : finite_bits F m) by (unfold finite_bits; lia). split; [done|].
    destruct HIF as [[-> ->]|[-> ->]]; unfold as_double; [done|]. change (carrier_bits float_info_float =? 32) with true. cbn iota.
    destruct (widen_ok m Hfin) as [Hw _]. unfold finite_bits in Hw. lia.
Qed.

(** ** Fields *)
(** What is left of write_float after the sign. *)
Definition float_body (E : env) (pt : Z) (I : float_info) (out : list Z) (m : Z) (p : float_pres) (sp : specs) (fs : float_specs)
    : res (list Z) :=
  if decide (fs_format fs = FloatLayout.Hex) then
    let* cs := format_hexfloat (as_double I m) (precision sp) fs in
    let cs := sign_chars (fs_sign fs) ++ cs in
    write_padded true out sp (Z.of_nat (length cs)) (Z.of_nat (length cs)) (fun it => Ok (it ++ cs))
  else
    let precision := if decide (0 <= precision sp \/ p = FNone) then precision sp else 6 in
    let* precision :=
      if decide (fs_format fs = Exp) then
        if decide (precision = max_int) then Throw else Ok (precision + 1)
      else if decide (fs_format fs <> Fixed /\ precision = 0) then Ok 1
      else Ok precision in
    let fs := if carrier_bits I =? 32 then set_fs_binary32 fs true else fs in
    let* (buffer, exp) := format_float (as_double I m) m precision fs in
    let fs := set_fs_precision fs precision in
    do_write_float E pt out (SChars buffer) exp sp fs.

(** The specs as they get there. *)
Definition body_specs (f : field) (p : Z) (sp : specs) : Prop :=
  0 <= width sp < 2 ^ 31 /\ precision sp = p /\ alt sp = f_alternate f /\ localized sp = false.
Definition local_specs (f : field) (p : Z) (sp : specs) : Prop :=
  0 <= width sp < 2 ^ 31 /\ precision sp = p /\ alt sp = f_alternate f /\ localized sp = f_local f.
Definition float_in (sp : specs) (text : list Z) : list Z :=
  in_field (placement_of true (al sp)) (fill sp) (width sp) (Z.of_nat (length text)) text.

Lemma sign_bit_ok I F br : kind_of I F -> 0 <= br < 2 ^ carrier_bits I ->
  sign_bit I br = (2 ^ (carrier_bits I - 1) <=? br) /\ magnitude I br = br mod 2 ^ (carrier_bits I - 1).
Proof.
  intros HIF Hbr. assert (HW : carrier_bits I = 64 \/ carrier_bits I = 32) by (destruct HIF as [[-> _]|[-> _]]; auto).
  split.
  - unfold sign_bit. set (W := carrier_bits I) in *.
    assert (Hp : 2 ^ W = 2 ^ (W - 1) * 2) by (replace W with (W - 1 + 1) at 1 by lia; rewrite Z.pow_add_r by lia; done).
    assert (Hpos : 0 < 2 ^ (W - 1)) by (apply Z.pow_pos_nonneg; lia).
    rewrite Z.testbit_odd, Z.shiftr_div_pow2 by lia. destruct (Z.leb_spec (2 ^ (W - 1)) br).
    + replace (br / 2 ^ (W - 1)) with 1; [done|]. apply (Z.div_unique_pos _ _ _ (br - 2 ^ (W - 1))); lia.
    + by rewrite Z.div_small by lia.
  - unfold magnitude. apply Z.land_ones. lia.
Qed.
Lemma finite_test I F m : kind_of I F -> 0 <= m < 2 ^ (carrier_bits I - 1) ->
  (Z.land m (exponent_mask I) = exponent_mask I <-> (emax F - emin F + 2) * 2 ^ (prec F - 1) <= m).
Proof.
  intros HIF Hm.
  assert (Hs : exists M e, 0 < M /\ 0 <= e /\ prec F - 1 = M /\ exponent_mask I = Z.shiftl (Z.ones e) M /\
    emax F - emin F + 2 = 2 ^ e - 1 /\ carrier_bits I - 1 = e + M).
  { destruct HIF as [[-> ->]|[-> ->]]; [exists 52, 11|exists 23, 8]; split_and!; done. }
  destruct Hs as (M & e & HM & He & HpF & Hmask & HF & HW). rewrite HpF, HF, Hmask. rewrite HW, Z.pow_add_r in Hm by lia.
  assert (Hpw : 0 < 2 ^ M) by (apply Z.pow_pos_nonneg; lia). assert (Hpe : 0 < 2 ^ e) by (apply Z.pow_pos_nonneg; lia).
  assert (Hl : Z.land m (Z.shiftl (Z.ones e) M) = m / 2 ^ M * 2 ^ M).
  { rewrite <- (Z.shiftl_mul_pow2 (m / 2 ^ M)), <- Z.shiftr_div_pow2 by lia.
    apply Z.bits_inj'. intros i Hi. rewrite Z.land_spec.
    destruct (decide (i < M)) as [Hlt|Hge].
    - rewrite !Z.shiftl_spec_low by lia. apply andb_false_r.
    - rewrite !Z.shiftl_spec by lia. rewrite Z.shiftr_spec by lia. replace (i - M + M) with i by lia.
      destruct (decide (i - M < e)) as [Hi2|Hi2].
      + rewrite Z.ones_spec_low by lia. apply andb_true_r.
      + rewrite Z.ones_spec_high by lia. rewrite andb_false_r. symmetry. apply Z.bits_above_log2; [lia|].
        destruct (decide (m = 0)) as [->|Hm0]; [cbn; lia|]. apply Z.log2_lt_pow2; [lia|].
        eapply Z.lt_le_trans; [apply Hm|]. rewrite <- Z.pow_add_r by lia. apply Z.pow_le_mono_r; lia. }
  rewrite Hl, Z.shiftl_mul_pow2, Z.ones_equiv by lia. rewrite <- Z.sub_1_r.
  pose proof (Z.div_mod m (2 ^ M) ltac:(lia)). pose proof (Z.mod_pos_bound m (2 ^ M) Hpw).
  set (d := m / 2 ^ M) in *. split.
  - intros Heq. apply Z.mul_reg_r in Heq; [|lia]. rewrite Heq in *. lia.
  - intros Hle. f_equal. assert (2 ^ e - 1 <= d) by nia. assert (d < 2 ^ e) by nia. lia.
Qed.

Lemma frame_local E pt I F out br pr f w p wr pc text : kind_of I F -> 0 <= br < 2 ^ carrier_bits I ->
  let m := br mod 2 ^ (carrier_bits I - 1) in
  m < (emax F - emin F + 2) * 2 ^ (prec F - 1) -> 0 <= w < 2 ^ 31 ->
  (forall out sp sg, local_specs f p sp -> let fs := set_fs_sign (parse_float_type_spec pr sp) sg in
    float_body E pt I out m pr sp fs = Ok (out ++ float_in sp (sign_chars sg ++ text))) ->
  write_float_specs E pt I out br pr (specs_of f w p wr pc)
  = Ok (out ++ number_in_field f w (2 ^ (carrier_bits I - 1) <=? br) text).
Proof.
  intros HIF Hbr m Hm Hw Hbody. unfold write_float_specs.
  destruct (sign_bit_ok I F br HIF Hbr) as [-> ->]. fold m. cbv zeta.
  assert (Hmr : 0 <= m < 2 ^ (carrier_bits I - 1)).
  { apply Z.mod_pos_bound. destruct HIF as [[-> _]|[-> _]]; done. }
  pose proof (finite_test I F m HIF Hmr) as Hfin.
  rewrite (decide_False (P := Z.land m (exponent_mask I) = exponent_mask I)) by (intros H%Hfin; lia).
  set (neg := 2 ^ (carrier_bits I - 1) <=? br).
  set (sg := if neg then SMinus else match sgn (specs_of f w p wr pc) with SMinus => SNone | s => s end).
  assert (Hsg : sign_chars sg = field_sign f neg).
  { unfold sg, field_sign, plus_text. cbn [sgn specs_of]. unfold sgn_of. destruct neg; [done|]. by destruct (f_sign f) as [[]|]. }
  unfold number_in_field. rewrite <- Hsg. cbn [al specs_of fs_sign set_fs_sign].
  set (sp0 := specs_of f w p wr pc).
  assert (Hsp0 : local_specs f p sp0) by (unfold sp0; split_and!; cbn; lia || done).
  destruct (decide (al_of f = ANumeric /\ sg <> SNone)) as [[Hnum Hne]|Hno].
  - assert (Hzp : zero_padded f = true) by (by apply numeric_of). rewrite Hzp.
    set (sp := if decide (width sp0 <> 0) then set_width sp0 (width sp0 - 1) else sp0).
    assert (Hsp : local_specs f p sp).
    { unfold sp. destruct (decide (width sp0 <> 0)) as [Hwz|Hwz]; [|done]. destruct Hsp0 as (H1 & H2 & H3 & H4).
      split_and!; cbn; try done. cbn in H1, Hwz |- *. all: lia. }
    assert (Hfs : set_fs_sign (parse_float_type_spec pr sp) SNone = set_fs_sign (set_fs_sign (parse_float_type_spec pr sp0) sg) SNone).
    { unfold sp. destruct (decide (width sp0 <> 0)); by destruct pr. }
    pose proof (Hbody (out ++ sign_chars sg) sp SNone Hsp) as Hb. cbv zeta in Hb. rewrite Hfs in Hb.
    etransitivity; [exact Hb|].
    rewrite <- app_assoc. do 3 f_equal. unfold float_in. cbn [sign_chars app].
    assert (Hsp1 : al sp = ANumeric /\ fill sp = [48]).
    { unfold sp. destruct (decide (width sp0 <> 0)); cbn [al fill set_width sp0 specs_of]; (split; [done|]); unfold fill_text; by rewrite Hzp. }
    destruct Hsp1 as [-> ->]. cbn [placement_of].
    assert (Hl1 : Z.of_nat (length (sign_chars sg)) = 1) by (by destruct sg). rewrite Hl1.
    unfold sp. destruct (decide (width sp0 <> 0)) as [Hwz|Hwz]; cbn [width set_width sp0 specs_of] in *; [done|].
    unfold in_field. rewrite !Z.max_l by lia. done.
  - etransitivity; [exact (Hbody out sp0 sg Hsp0)|]. do 2 f_equal. unfold float_in. cbn [al fill width specs_of sp0]. rewrite place_of.
    destruct (zero_padded f) eqn:Hzp; [|done].
    assert (sg = SNone) as ->.
    { destruct (decide (sg = SNone)) as [H|H]; [done|]. exfalso. apply Hno. split; [by apply numeric_of|done]. }
    cbn [sign_chars app length]. change (Z.of_nat 0) with 0. rewrite Z.sub_0_r.
    assert (Hpl : place PlRight f = PlRight).
    { unfold place. unfold zero_padded in Hzp. destruct (f_align f), (f_zero f); done. }
    rewrite Hpl. unfold fill_text. by rewrite Hzp.
Qed.
Lemma frame E pt I F out br pr f w p wr pc text : kind_of I F -> 0 <= br < 2 ^ carrier_bits I ->
  let m := br mod 2 ^ (carrier_bits I - 1) in
  m < (emax F - emin F + 2) * 2 ^ (prec F - 1) -> 0 <= w < 2 ^ 31 -> f_local f = false ->
  (forall out sp sg, body_specs f p sp -> let fs := set_fs_sign (parse_float_type_spec pr sp) sg in
    float_body E pt I out m pr sp fs = Ok (out ++ float_in sp (sign_chars sg ++ text))) ->
  write_float_specs E pt I out br pr (specs_of f w p wr pc)
  = Ok (out ++ number_in_field f w (2 ^ (carrier_bits I - 1) <=? br) text).
Proof.
  intros HIF Hbr m Hm Hw Hloc Hbody. apply (frame_local E pt I F); try done. intros out' sp sg (H1 & H2 & H3 & H4).
  apply Hbody. split_and!; try done; congruence || lia.
Qed.
